(** Proofs for T_Traffic.v *)
From Verif Require Import Base BaseP Json Msg M_State S_State M_Ctx M_Codec M_Authz M_ClientAuth M_Service M_Token M_Handler
  S_Service S_Token S_Handler S_Flow S_Trace S_Sched S_Route S_Multi S_Traffic
  P_Ctx P_Authz P_Service P_Wire P_Token P_Handler P_Flow P_Handler2 P_Handler3 P_Handler4 P_Answer P_Route P_Multi.

Lemma grp_address E s args au kw c i c' : s_extra s = [] -> dget "endpoint" kw = None ->
  pure (get_request_parameters E s args "" "" au kw) ->
  get_request_parameters E s args "" "" au kw c = (Ok i, c') ->
  exists ep, get_endpoint s c = Ok (VStr ep) /\ i_method i = s_http_method s /\
    same_address (i_url i) ep /\ (mem_str (s_http_method s) ["GET"; "DELETE"] = false -> i_url i = ep).
Proof.
  intros He Hk Pu H. assert (c' = c) as -> by (specialize (Pu c); rewrite H in Pu; exact Pu).
  apply grp_inv in H. cbv zeta in H. cbn [String.eqb eqs] in H.
  destruct H as (req0 & c1 & h & req1 & ep & H1 & H2 & H3 & H4 & H5 & H6 & _). rewrite Hk in H3.
  exists ep. split; [exact H3|]. split; [exact H4|]. destruct (mem_str (s_http_method s) ["GET"; "DELETE"]) eqn:Em.
  - split; [|discriminate]. destruct req1 as [|x l].
    + unfold get_http_url in H6. rewrite Em in H6. injection H6 as <-. reflexivity.
    + assert (NE : x :: l <> []) by easy. destruct (http_url_get _ _ _ _ _ Em NE H6) as (_ & B & _). exact B.
  - rewrite http_url_other in H6 by assumption. injection H6 as <-. split; reflexivity.
Qed.

(** ** sequencing *)
Definition sends_from {A} (c0 : ctx) (run : http_client -> M A) (P : string -> string -> Prop) : Prop :=
  forall h1 h2 c, agree_on P h1 h2 -> c = set_db (sdb c) c0 ->
    run h1 c = run h2 c /\ snd (run h1 c) = set_db (sdb (snd (run h1 c))) c0.
Lemma sf_still {A} c0 (m : M A) P : settings_kept m -> sends_from c0 (fun _ => m) P.
Proof. intros K h1 h2 c _ C. split; [reflexivity|]. rewrite (K c) at 1. rewrite C at 2. reflexivity. Qed.
Lemma sf_bind {A B} c0 (m : http_client -> M A) (f : http_client -> A -> M B) P :
  sends_from c0 m P -> (forall a, sends_from c0 (fun h => f h a) P) -> sends_from c0 (fun h => bind (m h) (f h)) P.
Proof.
  intros H1 H2 h1 h2 c Ag C. unfold bind. destruct (H1 h1 h2 c Ag C) as [E K]. rewrite <- E.
  destruct (m h1 c) as [[a|e] c1]; cbn [snd] in K; [exact (H2 a h1 h2 c1 Ag K)|]. split; [reflexivity|exact K].
Qed.
Lemma sf_weaken {A} c0 (m : http_client -> M A) (P Q : string -> string -> Prop) :
  sends_from c0 m P -> (forall u x, P u x -> Q u x) -> sends_from c0 m Q.
Proof. intros H I h1 h2 c Ag C. apply H; [|exact C]. intros u m0 b h Hp. apply Ag, I, Hp. Qed.
Lemma sf_top {A} c0 (m : http_client -> M A) P : sends_from c0 m P -> only_sends m c0 (whatever P).
Proof. intros H h1 h2 Ag. apply (H h1 h2 c0); [exact Ag|]. symmetry. apply set_db_same. Qed.

(** ** what keeps the settings *)
Lemma sk_lift {A} (x : res A) : settings_kept (lift x).
Proof. apply sk_pure. reflexivity. Qed.
Lemma sk_ret {A} (x : A) : settings_kept (ret x).
Proof. apply sk_pure. reflexivity. Qed.
Lemma sk_raise {A} e : settings_kept (@raise A e).
Proof. apply sk_pure. reflexivity. Qed.
Lemma sk_read {A} (f : db -> res A) : settings_kept (read_db f).
Proof. apply sk_pure. reflexivity. Qed.
Lemma sk_of {A} (m : M A) : (forall c, snd (m c) = set_db (sdb (snd (m c))) c) -> settings_kept m.
Proof. auto. Qed.
Lemma sk_parse_request_response j s h rbt st : (forall m st, settings_kept (s_post_parse s m st)) ->
  settings_kept (parse_request_response j s h rbt st).
Proof.
  intros H. unfold parse_request_response. destruct (zmem _ _); [apply sk_bind; [now apply sk_parse|intros; apply sk_ret]|].
  destruct (zmem _ _); [apply sk_ret|]. destruct (_ =? 500)%Z; [apply sk_raise|]. destruct (_ && _)%bool; [|apply sk_raise].
  intros c. match goal with |- context [parse_response j s ?x ?y "" c] =>
    pose proof (sk_parse j s x y "" H c) as K; destruct (parse_response j s x y "" c) as [[m|e] c1] end; [exact K|].
  cbn [snd] in K. destruct e; try exact K. destruct (_ =?s rbt); [exact K|].
  match goal with |- context [parse_response j s ?x ?y "" c1] =>
    pose proof (sk_parse j s x y "" H c1) as K2; destruct (parse_response j s x y "" c1) as [[m|e] c2] end; cbn [snd] in K2.
  - cbn [snd]. rewrite K2 at 1. rewrite K at 1. reflexivity.
  - assert (X : c2 = set_db (sdb c2) c) by (rewrite K2 at 1; rewrite K at 1; reflexivity). destruct e; exact X.
Qed.
Lemma sk_service_request http j s u m b rbt h st :
  (forall m st, settings_kept (s_post_parse s m st)) -> (forall m st, settings_kept (s_update s m st)) ->
  settings_kept (service_request http j s u m b rbt h st).
Proof.
  intros H1 H2. unfold service_request. apply sk_bind.
  - unfold get_response. destruct (http u m b h) as [r|e]; [|exact (sk_raise e)].
    destruct (_ && _)%bool; [apply sk_ret|]. destruct (_ && _)%bool; [apply sk_ret|]. now apply sk_parse_request_response.
  - intros r. destruct (has_error r); [apply sk_ret|]. destruct r; [|apply sk_ret|destruct (s_redirect s) as [e|]; [exact (sk_raise e)|apply sk_ret]].
    apply sk_bind; [apply H2|intros; apply sk_ret].
Qed.
Lemma sk_store_token now m st : settings_kept (store_token_response now m st).
Proof.
  unfold store_token_response. destruct (add_expires_at now m) as [x|e]; [|exact (sk_raise e)]. apply sk_bind; [apply sk_on_db|intros; apply sk_ret].
Qed.
Lemma sk_token_update now m st : settings_kept (oidc_token_update now m st).
Proof.
  unfold oidc_token_update. apply sk_bind; [|intros; apply sk_store_token].
  destruct (dget _ m) as [[]|]; try apply sk_raise; try apply sk_ret. intros c.
  destruct (dget "nonce" d) as [[]|]; try (symmetry; apply set_db_same).
  destruct (get_state_by_nonce (sdb c) s) as [k|[]]; try (symmetry; apply set_db_same).
  destruct (k =?s st); [|symmetry; apply set_db_same].
  destruct (dget "sub" d) as [[]|]; try (symmetry; apply set_db_same). apply sk_on_db.
Qed.

(** ** requests *)
Lemma sf_do_request c0 E j s args au kw (P : string -> string -> Prop) : s_extra s = [] -> dget "endpoint" kw = None ->
  pure (get_request_parameters E s args "" "" au kw) ->
  (forall d, get_endpoint s (set_db d c0) = get_endpoint s c0) ->
  (forall m st, settings_kept (s_post_parse s m st)) -> (forall m st, settings_kept (s_update s m st)) ->
  (forall ep u, get_endpoint s c0 = Ok (VStr ep) -> same_address u ep ->
     (mem_str (s_http_method s) ["GET"; "DELETE"] = false -> u = ep) -> P u (s_http_method s)) ->
  sends_from c0 (fun http => do_request E http j s "" args au kw) P.
Proof.
  intros He Hk Pu Ge K1 K2 HP h1 h2 c Ag C. split.
  - apply (do_request_sends E j s "" args au kw c (whatever P)); [|exact Ag].
    intros i c1 H. destruct (grp_address _ _ _ _ _ _ _ _ He Hk Pu H) as (ep & A1 & A2 & A3 & A4).
    unfold whatever. rewrite A2. apply (HP ep); [|exact A3|exact A4]. rewrite C, Ge in A1. exact A1.
  - unfold do_request, bind. pose proof (Pu c) as K. destruct (get_request_parameters E s args "" "" au kw c) as [[i|] c1]; cbn [snd] in K; subst c1; [|exact C].
    rewrite (sk_service_request h1 j s (i_url i) (i_method i) (i_body i) _ (i_headers i) _ K1 K2 c) at 1.
    rewrite C at 2. reflexivity.
Qed.
Lemma sf_named c0 W cl s args au kw P :
  sends_from c0 (fun http => do_request (e_authn W) http (e_jwt W) s "" args au kw) P ->
  sends_from c0 (fun http => do_request_named (with_http W http) cl s args au kw) P.
Proof.
  intros H. unfold do_request_named. destruct (has_service cl (s_name s)); [exact H|]. apply sf_still, sk_raise.
Qed.
Lemma sf_answer {B} c0 (f : response -> M B) P : (forall r, settings_kept (f r)) -> forall r, sends_from c0 (fun _ => f r) P.
Proof. intros H r. now apply sf_still. Qed.
Lemma sk_checked r : settings_kept (if is_error_response r then raise OidcServiceError else ret r).
Proof. destruct (is_error_response r); [apply sk_raise|apply sk_ret]. Qed.
Lemma sf_cond {A} c0 (m : ctx -> http_client -> M A) P :
  (forall d http, m (set_db d c0) http = m c0 http) -> sends_from c0 (m c0) P ->
  sends_from c0 (fun http c => m c http c) P.
Proof. intros E H h1 h2 c Ag C. rewrite C, !E. rewrite <- C. apply H; assumption. Qed.

Lemma sf_get_tokens c0 W cl st : sends_from c0 (fun http => get_tokens (with_http W http) cl st) (to_token_endpoint c0).
Proof.
  intros h1 h2 c Ag C. unfold get_tokens.
  match goal with |- context [match ?x with Ok _ => _ | Err _ => _ end] => destruct x as [[args am]|] end; [|split; [reflexivity|exact C]].
  revert h1 h2 c Ag C.
  change (sends_from c0 (fun http => bind (do_request_named (with_http W http) cl (token_svc (with_http W http) cl) args am [("state", VStr st)])
    (fun r => if is_error_response r then raise OidcServiceError else ret r)) (to_token_endpoint c0)).
  apply sf_bind; [|intros r; apply sf_still, sk_checked].
  change (fun http => do_request_named (with_http W http) cl (token_svc (with_http W http) cl) args am [("state", VStr st)])
    with (fun http => do_request_named (with_http W http) cl (token_svc W cl) args am [("state", VStr st)]).
  apply sf_named. assert (EX : s_extra (token_svc W cl) = [] /\ s_http_method (token_svc W cl) = "POST" /\
    s_post_parse (token_svc W cl) = pass /\ s_update (token_svc W cl) = oidc_token_update (e_now W) /\
    (forall c, get_endpoint (token_svc W cl) c = dict_get "token_endpoint" (provider_info c))).
  { unfold token_svc. destruct (cl_pkce cl); repeat split. }
  destruct EX as (X1 & X2 & X3 & X4 & X5). apply sf_do_request; [exact X1|reflexivity|apply pure_token_grp| | | |].
  - intros d. now rewrite !X5.
  - intros. rewrite X3. apply sk_ret.
  - intros. rewrite X4. apply sk_token_update.
  - intros ep u. rewrite X5, X2. intros G _ U. rewrite (U eq_refl). split; [reflexivity|].
    unfold dict_get in G. unfold has_published. destruct (dget _ _); [congruence|discriminate].
Qed.
Lemma sf_refresh c0 W cl st scope : sends_from c0 (fun http => refresh_access_token (with_http W http) cl st scope) (to_token_endpoint c0).
Proof.
  intros h1 h2 c Ag C. unfold refresh_access_token. destruct (client_authn_method c) as [am|]; [|split; [reflexivity|exact C]].
  revert h1 h2 c Ag C.
  change (sends_from c0 (fun http => bind (do_request_named (with_http W http) cl (refresh_svc W cl) (if scope =?s "" then [] else [("scope", VStr scope)]) am [("state", VStr st)])
    (fun r => if is_error_response r then raise OidcServiceError else ret r)) (to_token_endpoint c0)).
  apply sf_bind; [|intros r; apply sf_still, sk_checked].
  apply sf_named, sf_do_request; auto using pure_refresh_grp.
  - intros. apply sk_ret.
  - intros. apply sk_store_token.
  - intros ep u G _ U. rewrite (U eq_refl). split; [reflexivity|].
    change (dict_get "token_endpoint" (provider_info c0) = Ok (VStr ep)) in G.
    unfold dict_get in G. unfold has_published. destruct (dget _ _); [congruence|discriminate].
Qed.
Lemma sf_user_info c0 W cl st tok : sends_from c0 (fun http => get_user_info (with_http W http) cl st tok) (to_userinfo_endpoint c0).
Proof.
  unfold get_user_info. apply sf_bind.
  { apply sf_still. destruct (tok =?s ""); [|apply sk_ret]. apply sk_bind; [apply sk_read|intros; apply sk_ret]. }
  intros _. apply sf_bind; [|intros r; apply sf_still, sk_checked].
  change (fun http => do_request_named (with_http W http) cl (userinfo_svc (with_http W http) cl) [("access_token", VStr tok)] "" [("state", VStr st)])
    with (fun http => do_request_named (with_http W http) cl (userinfo_svc W cl) [("access_token", VStr tok)] "" [("state", VStr st)]).
  apply sf_named, sf_do_request; auto using pure_userinfo_grp.
  - intros. apply sk_userinfo.
  - intros. apply sk_ret.
  - intros ep u G A _. split; [reflexivity|]. exists ep. split; [|exact A].
    change (dict_get "userinfo_endpoint" (provider_info c0) = Ok (VStr ep)) in G.
    unfold dict_get in G. unfold has_published. destruct (dget _ _); [congruence|discriminate].
Qed.
Lemma sk_finalize_auth vrf now iss resp : settings_kept (finalize_auth vrf now iss resp).
Proof.
  intros c. destruct (finalize_auth vrf now iss resp c) as [r c'] eqn:E. cbn [snd]. apply finalize_auth_spec in E.
  destruct r as [m|e]; [|subst c'; symmetry; apply set_db_same].
  destruct E as [[_ ->]|(_ & s & _ & _ & X & _)]; [symmetry; apply set_db_same|exact X].
Qed.
Lemma sk_bind_value x v st : settings_kept (bind_value x v st).
Proof. unfold bind_value. destruct v; try apply sk_raise. apply sk_on_db. Qed.
Lemma sk_bind_subject t info st : settings_kept (bind_subject t info st).
Proof.
  unfold bind_subject.
  assert (X : settings_kept (s <- lift (dict_get "sub" info) ;; bind_value "subject id" s st)) by (apply sk_bind; [apply sk_lift|intros; apply sk_bind_value]).
  destruct t as [| | | | |[|kv r]]; try exact X.
  apply sk_bind; [apply sk_pure; reflexivity|]. intros b. apply sk_bind; [|intros _; apply sk_bind; [apply sk_lift|intros; apply sk_bind_value]].
  destruct b; [|apply sk_ret]. destruct (dget "sid" (kv :: r)); [apply sk_bind_value|apply sk_ret].
Qed.
Lemma sf_endpoint c0 W cl st : sends_from c0 (fun http => tokens_from_endpoint (with_http W http) cl st) (to_token_endpoint c0).
Proof.
  unfold tokens_from_endpoint. apply sf_bind; [apply sf_get_tokens|]. intros r. apply sf_still.
  apply sk_bind; [apply sk_lift|intros; apply sk_ret].
Qed.
Lemma sf_access c0 W cl resp st collect : sends_from c0 (fun http => get_access_and_id_token (with_http W http) cl resp st collect) (to_token_endpoint c0).
Proof.
  unfold get_access_and_id_token. apply sf_bind; [apply sf_still, sk_read|]. intros rq.
  apply sf_bind; [apply sf_still, sk_lift|]. intros rt. apply sf_bind; [apply sf_still, sk_lift|]. intros idt.
  destruct (one_of rt _).
  { apply sf_bind; [apply sf_still, sk_lift|]. intros a. destruct collect; [apply sf_endpoint|apply sf_still, sk_ret]. }
  destruct (one_of rt _); [apply sf_endpoint|apply sf_still, sk_ret].
Qed.
Lemma sf_finalize c0 W cl iss resp collect : sends_from c0 (fun http => finalize (with_http W http) cl iss resp collect) (to_own_provider c0).
Proof.
  unfold finalize. apply sf_bind; [exact (sf_still c0 _ _ (sk_finalize_auth (e_vrf W "authorization") (e_now W) iss resp))|].
  intros ar. destruct (is_error_message ar).
  { apply sf_still. apply sk_bind; [apply sk_lift|]. intros s. apply sk_bind; [apply sk_lift|intros; apply sk_ret]. }
  destruct (dget "state" ar) as [[| | |st| |]|]; try apply sf_still, sk_raise.
  apply sf_bind; [eapply sf_weaken; [apply sf_access|left; assumption]|]. intros t. apply sf_bind.
  - destruct (has_service cl "userinfo" && truthy (t_access t))%bool.
    + destruct (t_access t) as [| | |a| |]; try apply sf_still, sk_raise.
      apply sf_bind; [eapply sf_weaken; [apply sf_user_info|right; assumption]|]. intros r. apply sf_still, sk_ret.
    + apply sf_still. destruct (t_id t) as [| | | | |[|kv r]]; apply sk_ret.
  - intros info. apply sf_still. apply sk_bind; [apply sk_bind_subject|intros; apply sk_ret].
Qed.

(** ** the calls of a client, and of a handler *)
Lemma call_traffic cl o c h1 h2 : agree_on (to_own_provider c) h1 h2 ->
  answer_of cl (call_at h1 o) c = answer_of cl (call_at h2 o) c /\ run_call cl (call_at h1 o) c = run_call cl (call_at h2 o) c.
Proof.
  intros Ag.
  assert (G : forall A (run : http_client -> M A), sends_from c run (to_own_provider c) -> run h1 c = run h2 c).
  { intros A run S. apply (sf_top c run _ S). exact Ag. }
  destruct o; cbn [call_at answer_of run_call].
  - split; reflexivity.
  - rewrite (G _ (fun http => finalize (with_http W http) cl iss resp collect) (sf_finalize c W cl iss resp collect)). split; reflexivity.
  - split; reflexivity.
  - rewrite (G _ (fun http => get_tokens (with_http W http) cl state)); [split; reflexivity|]. eapply sf_weaken; [apply sf_get_tokens|left; assumption].
  - rewrite (G _ (fun http => refresh_access_token (with_http W http) cl state scope)); [split; reflexivity|]. eapply sf_weaken; [apply sf_refresh|left; assumption].
  - rewrite (G _ (fun http => get_user_info (with_http W http) cl state token)); [split; reflexivity|]. eapply sf_weaken; [apply sf_user_info|right; assumption].
  - split; reflexivity.
  - split; reflexivity.
Qed.
Lemma client_for_peer h o p : client_for h (hcall_at_peer p o) = client_for h o.
Proof. now destruct o. Qed.
Lemma client_call_peer o p : client_call (hcall_at_peer p o) = call_at p (client_call o).
Proof. now destruct o. Qed.
Lemma hcall_traffic h o h1 h2 :
  (forall i cl, client_for h o = Ok i -> dget i h = Some cl -> agree_on (to_own_provider (cl_ctx cl)) h1 h2) ->
  hanswer h (hcall_at_peer h1 o) = hanswer h (hcall_at_peer h2 o) /\ run_hcall h (hcall_at_peer h1 o) = run_hcall h (hcall_at_peer h2 o).
Proof.
  intros Ag. rewrite !answer_at, !run_at, !client_for_peer, !client_call_peer.
  destruct (client_for h o) as [i|]; [|split; reflexivity]. unfold at_client. destruct (dget i h) as [cl|] eqn:D; [|split; reflexivity].
  destruct (call_traffic cl (client_call o) (cl_ctx cl) h1 h2 (Ag i cl eq_refl D)) as [-> ->]. split; reflexivity.
Qed.
