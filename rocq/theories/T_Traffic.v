(** Property theorems C73: where a client's HTTP requests go.  Specification in S_Traffic.v,
    proofs in P_Traffic.v and P_Traffic2.v. *)
From Verif Require Import Base BaseP Json Msg M_State S_State M_Ctx M_Codec M_Authz M_ClientAuth M_Service M_Token M_Handler M_Verify
  S_Service S_Token S_Handler S_Flow S_Trace S_Sched S_Route S_Multi P_Ctx P_Trace P_Route P_Answer P_Multi
  M_Provider S_Provider M_Registration M_WebFinger M_Setup S_Setup P_Setup S_Traffic P_Traffic P_Traffic2 Ex T_Verify T_Logout T_Handler T_Sched T_Multi T_Setup.

(** ** one client *)
(** C73: a token request and a refresh are POSTs to the token endpoint the provider has
    published, the UserInfo request is a GET at its UserInfo endpoint, in every state *)
Theorem C73_token_requests : forall W cl st c,
  only_sends (fun http => get_tokens (with_http W http) cl st) c (whatever (to_token_endpoint c)).
Proof. intros. apply sf_top, sf_get_tokens. Qed.
Print Assumptions C73_token_requests.
Theorem C73_refresh_requests : forall W cl st scope c,
  only_sends (fun http => refresh_access_token (with_http W http) cl st scope) c (whatever (to_token_endpoint c)).
Proof. intros. apply sf_top, sf_refresh. Qed.
Print Assumptions C73_refresh_requests.
Theorem C73_userinfo_requests : forall W cl st tok c,
  only_sends (fun http => get_user_info (with_http W http) cl st tok) c (whatever (to_userinfo_endpoint c)).
Proof. intros. apply sf_top, sf_user_info. Qed.
Print Assumptions C73_userinfo_requests.
(** C73: finishing a login: whatever the authorization response says *)
Theorem C73_finishing_a_login : forall W cl iss resp collect c,
  only_sends (fun http => finalize (with_http W http) cl iss resp collect) c (whatever (to_own_provider c)).
Proof. intros. apply sf_top, sf_finalize. Qed.
Print Assumptions C73_finishing_a_login.
(** C73: any call of a client: its answer and all it does are the same with any two peers
    that answer the same to requests to the client's own provider *)
Theorem C73_any_call : forall cl o c http1 http2, agree_on (to_own_provider c) http1 http2 ->
  answer_of cl (call_at http1 o) c = answer_of cl (call_at http2 o) c /\
  run_call cl (call_at http1 o) c = run_call cl (call_at http2 o) c.
Proof. intros. now apply call_traffic. Qed.
Print Assumptions C73_any_call.
(** C73: beginning a login, reading an authorization response, logging out and clearing a
    login send nothing *)
Theorem C73_silent_calls : forall cl o c http1 http2,
  match o with CInit _ _ _ | CFinalizeAuth _ _ _ | CLogout _ _ _ | CClear _ => True | _ => False end ->
  answer_of cl (call_at http1 o) c = answer_of cl (call_at http2 o) c /\
  run_call cl (call_at http1 o) c = run_call cl (call_at http2 o) c.
Proof. intros cl o c h1 h2 H. destruct o; try contradiction; split; reflexivity. Qed.
Print Assumptions C73_silent_calls.
(** C73: a client of a provider that has published neither endpoint sends nothing at all *)
Theorem C73_nothing_published_nothing_sent : forall cl o c http1 http2,
  (forall ep, ~ has_published c "token_endpoint" ep) -> (forall ep, ~ has_published c "userinfo_endpoint" ep) ->
  answer_of cl (call_at http1 o) c = answer_of cl (call_at http2 o) c /\
  run_call cl (call_at http1 o) c = run_call cl (call_at http2 o) c.
Proof.
  intros cl o c h1 h2 N1 N2. apply C73_any_call. intros u m b h [[_ X]|(_ & ep & X & _)]; exfalso; [eapply N1|eapply N2]; eauto.
Qed.
Print Assumptions C73_nothing_published_nothing_sent.

(** ** a handler with many clients *)
(** C73: a call of the handler reaches no provider but that of the client which carries it out *)
Theorem C73_call_of_a_handler : forall h o http1 http2,
  (forall i cl, client_for h o = Ok i -> dget i h = Some cl -> agree_on (to_own_provider (cl_ctx cl)) http1 http2) ->
  hanswer h (hcall_at_peer http1 o) = hanswer h (hcall_at_peer http2 o) /\
  run_hcall h (hcall_at_peer http1 o) = run_hcall h (hcall_at_peer http2 o).
Proof. intros. now apply hcall_traffic. Qed.
Print Assumptions C73_call_of_a_handler.
Lemma same_provider h os i cl : fresh_handler h -> Forall hcall_ok os -> dget i (run_hcalls h os) = Some cl ->
  exists cl0, dget i h = Some cl0 /\ provider_info (cl_ctx cl) = provider_info (cl_ctx cl0).
Proof.
  intros [_ F] OK D. destruct (hcalls_traced os h OK) as (tr & [_ R] & T2 & _). rewrite R in D.
  destruct (dget i h) as [cl0|] eqn:E; [|discriminate]. injection D as <-. exists cl0. split; [reflexivity|]. cbn [cl_ctx set_ctx].
  destruct (F _ _ E) as (P1 & P2 & _). destruct (calls_write cl0 (tr i) P1 (T2 i) (cl_ctx cl0)) as [K _]; [rewrite P2; apply closed_nil|].
  rewrite K. reflexivity.
Qed.
(** C73: over any history of calls the addresses are those the providers had published at
    the start, whatever the peers have answered since *)
Theorem C73_any_history : forall h os http1 http2, fresh_handler h -> Forall hcall_ok os ->
  (forall i cl, dget i h = Some cl -> agree_on (to_own_provider (cl_ctx cl)) http1 http2) ->
  run_hcalls h (map (hcall_at_peer http1) os) = run_hcalls h (map (hcall_at_peer http2) os) /\
  forall o, hanswer (run_hcalls h (map (hcall_at_peer http1) os)) (hcall_at_peer http1 o) =
            hanswer (run_hcalls h (map (hcall_at_peer http2) os)) (hcall_at_peer http2 o).
Proof.
  intros h os h1 h2 F OK Ag.
  assert (OKp : forall os p, Forall hcall_ok os -> Forall hcall_ok (map (hcall_at_peer p) os)).
  { intros l p. induction 1 as [|x l Hx _ IH]; cbn [map]; constructor; auto. now destruct x. }
  assert (AgA : forall os i cl, Forall hcall_ok os -> dget i (run_hcalls h (map (hcall_at_peer h1) os)) = Some cl -> agree_on (to_own_provider (cl_ctx cl)) h1 h2).
  { intros l i cl O D. destruct (same_provider h _ i cl F (OKp l h1 O) D) as (cl0 & D0 & P). intros u m b hd T. apply (Ag i cl0 D0).
    revert T. unfold to_own_provider, to_token_endpoint, to_userinfo_endpoint, has_published. now rewrite P. }
  assert (R : run_hcalls h (map (hcall_at_peer h1) os) = run_hcalls h (map (hcall_at_peer h2) os)).
  { clear -OK AgA. induction os as [|o os IH] using rev_ind; [reflexivity|]. apply Forall_app in OK. destruct OK as [O1 O2].
    specialize (IH O1). unfold run_hcalls in *. rewrite !map_app, !fold_left_app. cbn [map fold_left].
    rewrite <- IH. apply hcall_traffic. intros i cl _ D. exact (AgA os i cl O1 D). }
  split; [exact R|]. intros o. rewrite <- R. apply hcall_traffic. intros i cl _ D. exact (AgA os i cl OK D).
Qed.
Print Assumptions C73_any_history.

(** ** setting up a client *)
(** C73: setting up a client asks the WebFinger URL of the user (only when no issuer is
    given), the well-known URL of the issuer (only when the configuration has no provider
    information) and the registration endpoint in the metadata (only when the configuration
    has no client identifier), and nothing else; an existing client is used without a request *)
Theorem C73_setting_up : forall W http H iss user beh s,
  (forall key cnf cfgs, use_config iss (hs_cfgs s) = (Ok (key, cnf), cfgs) -> iss = "" \/ dget iss (hs_rps s) = None ->
     agree_on (setup_request W H iss user cnf) (e_http W) http) ->
  client_setup (with_http W http) H iss user beh s = client_setup W H iss user beh s.
Proof. intros W http H iss user beh s Ag. apply setup_traffic. intros key cnf cfgs U N u m b h. apply (Ag _ _ _ U N). Qed.
Print Assumptions C73_setting_up.
(** C73: so does beginning a login, from an issuer or a user *)
Theorem C73_beginning : forall W http H iss user reqs beh s,
  (forall key cnf cfgs, use_config iss (hs_cfgs s) = (Ok (key, cnf), cfgs) -> iss = "" \/ dget iss (hs_rps s) = None ->
     agree_on (setup_request W H iss user cnf) (e_http W) http) ->
  begin (with_http W http) H iss user reqs beh s = begin W H iss user reqs beh s.
Proof.
  intros W http H iss user reqs beh s Ag. unfold begin. rewrite (C73_setting_up W http H iss user _ s Ag). reflexivity.
Qed.
Print Assumptions C73_beginning.

(** ** Examples *)
(** a peer that answers at the two endpoints of [ex_client] only *)
Definition fx_nowhere (http : http_client) (eps : list string) : http_client := fun u m b h =>
  if existsb (fun ep => u_base (M_Service.urlsplit u) =?s u_base (M_Service.urlsplit ep)) eps then http u m b h else Err OtherError.
Definition fx_eps := ["https://op.example/authz"; "https://op.example/token"; "https://op.example/userinfo"].
Definition fx_shut (k raw : string) : env := with_http (lx_env k raw) (fx_nowhere (e_http (lx_env k raw)) fx_eps).
Lemma fx_agree raw k : agree_on (to_own_provider lx_ctx) (e_http (lx_env k raw)) (e_http (fx_shut k raw)).
Proof.
  intros u m b h [[-> X]|[_ (ep & X & _)]]; unfold has_published in X; cbn in X; [|discriminate]. injection X as <-. vm_compute. reflexivity.
Qed.
Definition fx_calls : list hcall := [HInit (lx_env ex_state "a") mx_op [] None; HFinalize (lx_env ex_state "a") mx_op (sx_resp ex_state) false].
(** the login of [T_Multi] goes through with a peer that cannot be reached anywhere else *)
Example C73_ex : let http := e_http (fx_shut ex_state "a") in
  fresh_handler [(mx_op, lx_client)] /\ Forall hcall_ok fx_calls /\
  agree_on (to_own_provider lx_ctx) (e_http (lx_env ex_state "a")) http /\
  http "https://elsewhere.example/" "GET" None [] = Err OtherError /\
  sx_ok (hanswer (run_hcall [(mx_op, lx_client)] (hcall_at_peer http (nth 0 fx_calls (HClear "")))) (hcall_at_peer http (nth 1 fx_calls (HClear "")))) = true.
Proof.
  cbv zeta. split; [|split; [unfold fx_calls; repeat (apply Forall_cons; [first [split; reflexivity|exact Logic.I]|]); constructor|split; [apply fx_agree|split; vm_compute; reflexivity]]].
  split; [repeat constructor; cbn; intuition discriminate|]. intros i cl D. cbn [dget] in D. destruct (String.eqb_spec mx_op i) as [<-|]; [|discriminate].
  injection D as <-. repeat split; discriminate.
Qed.
(** setting up a client for a user: the three requests *)
Example C73_ex_setup : let W := su_env kA in
  setup_request W su_conf "" "acct:bob@op.example" (dset "issuer" (VStr "") su_default) "https://op.example/.well-known/openid-configuration" "GET" /\
  setup_request W su_conf "" "acct:bob@op.example" (dset "issuer" (VStr "") su_default) "https://op.example/reg" "POST".
Proof.
  cbv zeta.
  assert (A : issuer_asked (su_env kA) "" (dset "issuer" (VStr "") su_default) "https://op.example").
  { red. cbn [dget]. right. split; [reflexivity|].
    exists empty_ctx, [("links", VList [VDict [("rel", VStr OIC_ISSUER); ("href", VStr "https://op.example")]])]. eexists. do 3 eexists.
    split; [reflexivity|]. split; [reflexivity|]. split; [reflexivity|]. split; [now left|reflexivity]. }
  assert (B : well_known "https://op.example" "https://op.example/.well-known/openid-configuration").
  { exists "https://op.example". split; [reflexivity|]. right. split; reflexivity. }
  split.
  - now apply sr_discovery with (i := "https://op.example").
  - apply sr_registration with (md := op_pcr "https://op.example"); [reflexivity| |reflexivity]. right. split; [reflexivity|].
    exists "https://op.example", "https://op.example/.well-known/openid-configuration". do 4 eexists. split; [exact A|]. split; [exact B|].
    split; [reflexivity|]. split; [|left; reflexivity]. instantiate (2 := empty_ctx). instantiate (1 := op_pcr "https://op.example"). reflexivity.
Qed.
