(** The token, user info and finalize steps of logins with the plain OAuth2 services. *)
From Verif Require Import Base BaseP Json JsonP Msg M_State S_State P_State M_Ctx M_Codec M_Authz M_ClientAuth
  M_Service M_Token M_Handler M_OAuth S_Service S_Token S_Handler S_Flow S_Trace S_OAuth P_Ctx P_Authz P_Codec P_ClientAuth P_Service P_Wire
  P_Token P_Handler P_Flow P_Token2 P_Trace P_Flow2 P_Handler2 P_Handler3 P_Handler4 P_OAuth P_OAuth2 P_Logout P_Retry.

(** ** the token response *)
Lemma pure_otoken_grp p W cl args au kw : pure (get_request_parameters (e_authn W) (oauth_token_svc p W cl) args "" "" au kw).
Proof.
  destruct (oauth_token_fields p W cl) as (_ & _ & X & _ & _ & _ & _ & _ & _ & _ & _ & _ & S1 & S2).
  generalize dependent (oauth_token_svc p W cl). intros s X S1 S2. apply pure_grp; [exact X|]. apply pure_construct.
  - rewrite S1. intros m Hm a q kw'. destruct (cl_pkce cl); cbn in Hm; intuition (subst; intros c; reflexivity).
  - rewrite S2. intros m Hm r kw'. destruct (cl_pkce cl); [|easy]. destruct Hm as [<-|[]]. intros c; reflexivity.
Qed.
Lemma otoken_reads_only p W cl : reads_only (s_post_parse (oauth_token_svc p W cl)).
Proof. destruct (oauth_token_fields p W cl) as (_ & _ & _ & _ & _ & _ & -> & _). intros m st c r c' H. now injection H as _ <-. Qed.
Lemma oauth_tokens_changes p W cl st c r c' : oauth_tokens p W cl st c = (r, c') ->
  (c' = c /\ forall m, r <> Ok (RMsg m)) \/
  exists raw v m0, e_vrf W "accesstoken" c m0 = Ok v /\ (raw = v \/ exists z, raw = dset "status_code" z v) /\
    snd (store_token_of (token_class p) (e_now W) raw st c) = c' /\
    (forall m, r = Ok (RMsg m) -> fst (store_token_of (token_class p) (e_now W) raw st c) = Ok m).
Proof.
  intros H. destruct (oauth_tokens_inv _ _ _ _ _ _ _ H) as [(e & -> & ->)|(ar & rq & code & ru & am & A1 & A2 & A3 & A4 & A5 & A6 & r1 & A7 & A8)].
  { left. split; [reflexivity|discriminate]. }
  apply do_request_inv in A7. destruct A7 as [(e & B1 & B2)|(i & c2 & B1 & B2)].
  { subst r1 r. left. split; [|discriminate]. pose proof (pure_otoken_grp p W cl (tok_args c st code ru) am [("state", VStr st)] c) as P.
    rewrite B1 in P. exact P. }
  pose proof (pure_otoken_grp p W cl (tok_args c st code ru) am [("state", VStr st)] c) as P. rewrite B1 in P. cbn in P. subst c2.
  destruct (oauth_token_fields p W cl) as (T1 & T2 & T3 & _ & _ & TN & TP & TR & _ & TU & _ & TV & _).
  destruct (service_request_spec _ _ _ _ _ _ _ _ _ _ _ _ (otoken_reads_only p W cl) B2) as [[-> B3]|(resp & raw & C1 & C2 & C3 & r0 & C4 & C5)].
  - left. split; [reflexivity|]. intros m ->. destruct r1 as [[x|x|x]|]; try discriminate.
    + cbn [is_error_response has_error] in A8. rewrite B3 in A8. discriminate.
    + destruct (is_error_response (RText x)); discriminate.
  - right. rewrite TU in C4. cbn [dget eqs String.eqb Ascii.eqb Bool.eqb] in C4. unfold accepted in C3. rewrite TP, TV in C3. unfold pass, ret in C3.
    assert (V : exists v m0, e_vrf W "accesstoken" c m0 = Ok v /\ (raw = v \/ exists z, raw = dset "status_code" z v)).
    { destruct C3 as [[_ (m0 & v & s & D1 & D2 & D3)]|[_ (m1 & (m0 & v & s & D1 & D2 & D3) & D4)]].
      - injection D3 as <-. eauto.
      - injection D3 as <-. eauto 6. }
    destruct V as (v & m0 & V1 & V2). exists raw, v, m0. split; [exact V1|]. split; [exact V2|]. cbn in C4. rewrite C4. split; [reflexivity|].
    intros m ->. subst r1. destruct r0 as [x|]; [|discriminate]. unfold is_error_response in A8.
    destruct (has_error (RMsg x)); [discriminate|]. cbn. congruence.
Qed.
Lemma store_token_of_effect cls now resp key c r c' : store_token_of cls now resp key c = (r, c') ->
  match r with
  | Err _ => c' = c
  | Ok m => add_expires_at now resp = Ok m /\ c' = set_db (sdb c') c /\
      (forall cc, get_item (sdb c') cc "token_response" key = msg_new cc (msg_to_dict cls m)) /\
      (forall cc t, t <> "token_response" -> (exists s, get_state (sdb c) key = Ok s) ->
         get_item (sdb c') cc t key = get_item (sdb c) cc t key) /\
      (forall i, get_iss (sdb c) key = Ok i -> get_iss (sdb c') key = Ok i) /\
      (forall q, q <> key -> dget q (sdb c') = dget q (sdb c))
  end.
Proof.
  unfold store_token_of. destruct (add_expires_at now resp) as [m|e] eqn:E.
  - unfold bind, on_db, ret. destruct (store_item _ _ _ _) as [[[]|e] d] eqn:Es; intros [= <- <-];
      pose proof (store_item_effect _ _ _ _ _ _ _ Es) as F.
    + destruct F as (F1 & F2 & F3 & F4). cbn [sdb set_db]. repeat split; auto.
      intros i. apply F3. discriminate.
    + cbn in F. subst d. apply set_db_same.
  - unfold raise. now intros [= <- <-].
Qed.
(** what the token answer carries is what verification let through *)
Lemma otoken_accepted p W cl st c m c' : oauth_tokens p W cl st c = (Ok (RMsg m), c') ->
  (forall cc, get_item (sdb c') cc "token_response" st = msg_new cc (msg_to_dict (token_class p) m)) /\
  (forall v, dget "expires_in" m = Some v -> exists n, to_int v = Ok n /\ dget "__expires_at" m = Some (VInt (e_now W + n))) /\
  (exists m0 v, e_vrf W "accesstoken" c m0 = Ok v /\
     forall q, q <> "__expires_at" -> q <> "status_code" -> dget q m = dget q v) /\
  c' = set_db (sdb c') c /\
  (forall k, k <> st -> dget k (sdb c') = dget k (sdb c)).
Proof.
  intros H. destruct (oauth_tokens_changes _ _ _ _ _ _ _ H) as [[_ X]|(raw & v & m0 & V1 & V2 & V3 & V4)]; [now destruct (X m)|].
  specialize (V4 m eq_refl). destruct (store_token_of (token_class p) (e_now W) raw st c) as [r0 c0] eqn:E. cbn in V3, V4. subst r0 c0.
  pose proof (store_token_of_effect _ _ _ _ _ _ _ E) as F. cbn in F. destruct F as (F1 & F2 & F3 & F4 & F5 & F6).
  split; [exact F3|]. apply expires_spec in F1.
  assert (RW : forall q, q <> "status_code" -> dget q raw = dget q v).
  { intros q Hq. destruct V2 as [->|(z & ->)]; [reflexivity|]. apply dget_dset_neq. congruence. }
  split; [|split; [exists m0, v; split; [exact V1|]|auto]].
  - intros w Hv. destruct (dget "expires_in" raw) as [w'|] eqn:E'.
    + destruct F1 as (n & N1 & ->). rewrite dget_dset_neq in Hv by discriminate. rewrite E' in Hv. injection Hv as <-. exists n. split; [assumption|]. apply dget_dset_eq.
    + subst m. congruence.
  - intros q Hq Hq'. rewrite <- (RW q Hq'). destruct (dget "expires_in" raw) as [w'|].
    + destruct F1 as (n & N1 & ->). rewrite dget_dset_neq; congruence.
    + now subst m.
Qed.

(** ** the user info request *)
Lemma ouser_fields p W cl : let s := oauth_userinfo_svc p W cl in
  s_extra s = [] /\ s_http_method s = "GET" /\ s_endpoint s = "" /\ s_endpoint_name s = "userinfo_endpoint" /\ s_name s = "userinfo" /\
  s_vrf s = e_vrf W "userinfo" /\
  s_post_parse s = userinfo_post_parse_of (user_class p) (if user_authn p =?s "" then fun _ _ => Ok tt else unused_header) (e_agg W) /\ s_update s = pass /\
  s_cls s = cMessage /\ s_gather s = no_gather /\ s_post s = [] /\ s_pre s = [userinfo_pre; carry_state] /\
  s_conf s = conf_of cl "userinfo" /\ (forall c, s_authn s c = user_authn p) /\
  (forall c, get_endpoint s c = dict_get "userinfo_endpoint" (provider_info c)) /\ s_redirect s = None.
Proof. repeat split. Qed.
Lemma pure_ouser_grp p W cl args au kw : pure (get_request_parameters (e_authn W) (oauth_userinfo_svc p W cl) args "" "" au kw).
Proof.
  apply pure_grp; [reflexivity|]. apply pure_construct.
  - intros m Hm a q kw' c. cbn in Hm. destruct Hm as [<-|[<-|[]]]; reflexivity.
  - intros m Hm. contradiction.
Qed.
Lemma ouser_construct p W cl st tok c req c' : dget "pre_construct" (conf_of cl "userinfo") = None ->
  construct (oauth_userinfo_svc p W cl) [("access_token", VStr tok)] [("state", VStr st)] c = (Ok req, c') ->
  c' = c /\ NoDup (dkeys req) /\ forall q, dget q req = if ("access_token" =?s q) && negb (tok =?s "") then Some (VStr tok) else None.
Proof.
  intros PC H. destruct (ouser_fields p W cl) as (_ & _ & _ & _ & _ & _ & _ & _ & F1 & F2 & F3 & F4 & F5 & _).
  generalize dependent (oauth_userinfo_svc p W cl). intros s H F1 F2 F3 F4 F5.
  apply construct_inv in H. destruct H as (a & post & c1 & out & req0 & H1 & H2 & H3 & H4).
  unfold do_post_construct in H4. rewrite F3 in H4. cbn [run_post] in H4. unfold ret in H4. injection H4 as <- ->.
  unfold do_pre_construct in H1. rewrite F4, method_args_plain in H1 by (rewrite F5; exact PC). cbn [run_pre] in H1.
  apply bind_ok in H1. destruct H1 as ([a1 p1] & d1 & E1 & H1). cbn [fst snd] in H1.
  unfold userinfo_pre in E1. cbn in E1. injection E1 as <- <- <-.
  apply bind_ok in H1. destruct H1 as ([a2 p2] & d2 & E2 & H1). cbn [fst snd] in H1.
  unfold carry_state in E2. cbn in E2. injection E2 as <- <- <-. unfold ret in H1. injection H1 as <- <- <-.
  split; [reflexivity|].
  assert (SD : state_default s [("state", VStr st)] [("access_token", VStr tok)] = [("access_token", VStr tok)]) by (unfold state_default; rewrite F1; reflexivity).
  rewrite SD in H2. destruct (gather_any _ _ _ _ F2 H2) as [NO GO].
  assert (N1 : NoDup (dkeys [("access_token", VStr tok)])) by (cbn; constructor; [easy|constructor]). specialize (NO N1). rewrite F1 in H3.
  split; [eapply msg_new_NoDup; [|exact H3]; constructor|]. intros q. rewrite (msg_new_get _ _ _ NO H3).
  destruct (String.eqb_spec "access_token" q) as [<-|Nq].
  - rewrite (GO "access_token" (VStr tok) eq_refl). unfold skipped. destruct tok; reflexivity.
  - cbn [andb]. assert (O : dget q out = None).
    { destruct (gather_spec _ _ _ _ F2 H2) as [_ G]. destruct (G q) as (_ & _ & G3). apply G3; [cbn; now rewrite eqb_neq by assumption|]. rewrite F1. intros []. }
    now rewrite O.
Qed.
Lemma obearer_grp p W cl st tok c r c' : p <> GitHub -> dget "pre_construct" (conf_of cl "userinfo") = None ->
  get_request_parameters (e_authn W) (oauth_userinfo_svc p W cl) [("access_token", VStr tok)] "" "" "" [("state", VStr st)] c = (r, c') ->
  c' = c /\ match r with
  | Err _ => True
  | Ok i => tok <> "" /\ i_method i = "GET" /\ i_body i = None /\ dget "Authorization" (i_headers i) = Some ("Bearer " ++ tok)%string /\
      dget "userinfo_endpoint" (provider_info c) = Some (VStr (i_url i))
  end.
Proof.
  intros NG PC H. pose proof (pure_ouser_grp p W cl [("access_token", VStr tok)] "" [("state", VStr st)] c) as P. rewrite H in P. cbn in P. subst c'.
  split; [reflexivity|]. destruct r as [i|]; [|exact I].
  destruct (ouser_fields p W cl) as (F1 & F2 & F3 & F4 & F5 & _ & _ & _ & F6 & _ & _ & _ & _ & FA0 & GE & _). specialize (GE c).
  assert (FA : forall c, s_authn (oauth_userinfo_svc p W cl) c = "bearer_header") by (intros c0; rewrite FA0; destruct p; [reflexivity|contradiction|reflexivity]).
  assert (UC := fun req c' => ouser_construct p W cl st tok c req c' PC).
  generalize dependent (oauth_userinfo_svc p W cl). intros s H F1 F2 F3 F4 F5 F6 FA0 GE FA UC.
  apply grp_inv in H. cbv zeta in H. destruct H as (req0 & c1 & h & req1 & ep & H1 & H2 & H3 & H4 & H5 & H6 & H7).
  destruct (UC _ _ H1) as (-> & N & G). clear H1.
  cbn [eqs String.eqb] in *. rewrite F2 in *. rewrite FA in *. cbn in H7. destruct H7 as [H7 H8].
  unfold get_headers in H2. rewrite F1 in H2. unfold bind, asks, ret, run_headers in H2. cbn [eqs String.eqb] in H2.
  match type of H2 with context [get_authn_header ?a ?b ?d ?e ?f ?g] => destruct (get_authn_header a b d e f g) as [[h1 r1]|] eqn:E1 end; [|discriminate].
  cbn [fst snd] in H2. injection H2 as -> ->. unfold get_authn_header in E1. rewrite F5 in E1. cbn [eqs String.eqb] in E1. unfold rbind in E1.
  match type of E1 with context [authenticate ?a ?b ?x ?d ?e ?f ?g ?h ?k] => destruct (authenticate a b x d e f g h k) as [[ha r]|] eqn:AU end; [|discriminate].
  injection E1 as <- <-. assert (AU' := AU). change (bearer_header "userinfo" c (dset "authn_endpoint" (VStr (s_endpoint_name s)) (if issuer c =?s "" then [("state", VStr st)] else dset "iss" (VStr (issuer c)) [("state", VStr st)])) None req0 = Ok (ha, r)) in AU'.
  destruct (bearer_header_spec _ _ _ _ _ _ _ AU') as (t & hs & T1 & T2 & T3 & T4 & _).
  unfold find_token in T1. cbn [eqs String.eqb] in T1.
  pose proof (G "access_token") as GA. cbn [eqs String.eqb andb] in GA. destruct (tok =?s "") eqn:ET.
  - exfalso. cbn [negb] in GA. change ("userinfo" =?s "refresh_token") with false in T1. cbv iota in T1. rewrite GA in T1.
    destruct (issuer c =?s ""); cbn in T1; discriminate.
  - change ("userinfo" =?s "refresh_token") with false in T1. cbv iota in T1. change ("access_token" =?s "access_token") with true in GA. cbn [andb negb] in GA.
    rewrite GA in T1. injection T1 as <- <-.
    assert (RE : ddel "access_token" req0 = []).
    { apply all_none. intros q. destruct (String.eqb_spec "access_token" q) as [<-|Np]; [apply dget_ddel_same|].
      rewrite dget_ddel_other by assumption. rewrite G, eqb_neq by assumption. reflexivity. }
    split; [now apply String.eqb_neq|]. split; [exact H4|]. split; [exact H7|]. rewrite H8, T3. split; [exact T4|].
    change (dget "endpoint" [("state", VStr st)]) with (@None val) in H3. cbv iota in H3. rewrite GE in H3. unfold dict_get in H3.
    rewrite RE in H6. cbn in H6. injection H6 as <-. destruct (dget "userinfo_endpoint" (provider_info c)); [congruence|discriminate].
Qed.
Lemma ogithub_grp W cl st tok c i c' ep : dget "pre_construct" (conf_of cl "userinfo") = None -> tok <> "" ->
  dget "userinfo_endpoint" (provider_info c) = Some (VStr ep) -> u_query (urlsplit ep) = "" ->
  get_request_parameters (e_authn W) (oauth_userinfo_svc GitHub W cl) [("access_token", VStr tok)] "" "" "" [("state", VStr st)] c = (Ok i, c') ->
  token_in_url tok ep (i_url i) (i_method i) (i_body i) (i_headers i).
Proof.
  intros PC Ne EP QE H. destruct (ouser_fields GitHub W cl) as (F1 & F2 & _ & _ & _ & _ & _ & _ & _ & _ & _ & _ & _ & F5 & F6 & _).
  destruct (get_url _ _ _ _ _ _ _ F2 F1 F5 H) as (ep' & G1 & G2 & G3 & G4 & G5 & G6 & G7).
  destruct (ouser_construct _ _ _ _ _ _ _ _ PC G1) as (-> & N & G).
  change (dget "endpoint" [("state", VStr st)]) with (@None val) in G5. cbv iota in G5. rewrite F6 in G5. unfold dict_get in G5. rewrite EP in G5. injection G5 as <-.
  split; [exact G6|]. split; [exact G2|]. split; [exact G3|]. split; [exact G4|].
  destruct (G7 QE) as (G8 & _). apply (G8 N); [|exact Ne]. rewrite G, eqb_refl, eqb_neq by exact Ne. reflexivity.
Qed.
Lemma ouser_sends p W cl st tok c (P : string -> string -> option body -> headers -> Prop) : tok <> "" ->
  (forall i c', get_request_parameters (e_authn W) (oauth_userinfo_svc p W cl) [("access_token", VStr tok)] "" "" "" [("state", VStr st)] c = (Ok i, c') ->
     P (i_url i) (i_method i) (i_body i) (i_headers i)) ->
  only_sends (fun http => oauth_user_info p (with_http W http) cl st tok) c P.
Proof.
  intros Ne HP http1 http2 HH. unfold oauth_user_info, get_user_info_with. rewrite (eqb_neq _ _ Ne). unfold bind at 1 3, ret at 1 3.
  unfold do_request_named. change (oauth_userinfo_svc p (with_http W http1) cl) with (oauth_userinfo_svc p W cl). change (oauth_userinfo_svc p (with_http W http2) cl) with (oauth_userinfo_svc p W cl).
  destruct (has_service cl (s_name (oauth_userinfo_svc p W cl))); [|reflexivity].
  assert (S : only_sends (fun http => do_request (e_authn W) http (e_jwt W) (oauth_userinfo_svc p W cl) "" [("access_token", VStr tok)] "" [("state", VStr st)]) c P).
  { apply do_request_sends. intros i c1 G. now apply HP in G. }
  specialize (S http1 http2 HH). cbv beta in S.
  exact (f_equal (fun x : res response * ctx => let (r, c') := x in match r with Ok a => (if is_error_response a then raise OidcServiceError else ret a) c' | Err e => (Err e, c') end) S).
Qed.

(** ** the user info answer *)
Lemma ouser_post_empty cls hdr agg v c : closed rnd32 (sdb c) -> exists e, userinfo_post_parse_of cls hdr agg v "" c = (Err e, c).
Proof.
  intros C. apply closed_empty in C; [|apply rnd32_family].
  unfold userinfo_post_parse_of, bind, read_db. unfold multiple_extend_request_args. rewrite C. cbn. eauto.
Qed.
Lemma ouser_post_effect cls hdr agg resp st c r c' : userinfo_post_parse_of cls hdr agg resp st c = (r, c') ->
  match r with
  | Err _ => c' = c
  | Ok m => c' = set_db (sdb c') c /\
      (forall cc, get_item (sdb c') cc "user_info" st = msg_new cc (msg_to_dict cls m)) /\
      (forall k, k <> st -> dget k (sdb c') = dget k (sdb c)) /\
      (dget "_claim_sources" resp = None -> m = resp)
  end.
Proof.
  unfold userinfo_post_parse_of, bind, read_db, lift, on_db, ret. intros H.
  destruct (multiple_extend_request_args (sdb c) [] st ["id_token"] token_items false) as [args|] eqn:Ea; [|now injection H as <- <-].
  destruct (check_sub args resp) as [[]|] eqn:Es; [|now injection H as <- <-].
  match type of H with context [match ?x with Ok _ => _ | Err _ => _ end] => destruct x as [m|] eqn:Em end; [|now injection H as <- <-].
  destruct (store_item (IMsg cls m) "user_info" st (sdb c)) as [[[]|] d] eqn:Est;
    pose proof (store_item_effect _ _ _ _ _ _ _ Est) as F; injection H as <- <-.
  2:{ cbn in F. subst d. apply set_db_same. }
  destruct F as (F1 & _ & _ & F4). cbn [sdb set_db]. split; [reflexivity|]. split; [exact F1|]. split; [exact F4|].
  intros E. rewrite E in Em. now injection Em as <-.
Qed.
Lemma oauth_user_info_changes p W cl st tok c r c' : closed rnd32 (sdb c) -> oauth_user_info p W cl st tok c = (r, c') ->
  (c' = c /\ forall m, r <> Ok (RMsg m)) \/
  exists hdr m0 v m, is_error_message m0 = false /\ e_vrf W "userinfo" c m0 = Ok v /\
    userinfo_post_parse_of (user_class p) hdr (e_agg W) v st c = (Ok m, c') /\ (r = Ok (RMsg m) \/ exists e, r = Err e).
Proof.
  intros CL. unfold oauth_user_info, get_user_info_with. intros H.
  assert (H' : exists r1, ((exists e, r = Err e /\ c' = c) \/
     (do_request_named W cl (oauth_userinfo_svc p W cl) [("access_token", VStr tok)] "" [("state", VStr st)] c = (r1, c') /\
      r = match r1 with Ok x => if is_error_response x then Err OidcServiceError else Ok x | Err e => Err e end))).
  { unfold bind at 1 in H. destruct (tok =?s "").
    - unfold bind at 1, read_db in H. destruct (multiple_extend_request_args _ _ _ _ _ _) as [a|e].
      + unfold ret at 1 in H. unfold bind in H. destruct (do_request_named _ _ _ _ _ _ c) as [r1 c1] eqn:E.
        destruct r1 as [x|e]; [destruct (is_error_response x) eqn:EX|]; unfold raise, ret in H; injection H as <- <-; eexists; right; (split; [reflexivity|]); cbv beta iota; rewrite ?EX; reflexivity.
      + injection H as <- <-. exists (Err e). left. eauto.
    - unfold ret at 1 in H. unfold bind in H. destruct (do_request_named _ _ _ _ _ _ c) as [r1 c1] eqn:E.
      destruct r1 as [x|e]; [destruct (is_error_response x) eqn:EX|]; unfold raise, ret in H; injection H as <- <-; eexists; right; (split; [reflexivity|]); cbv beta iota; rewrite ?EX; reflexivity. }
  clear H. destruct H' as (r1 & [(e & -> & ->)|[H ->]]); [left; split; [reflexivity|discriminate]|].
  unfold do_request_named in H. destruct (has_service _ _); [|injection H as <- <-; left; split; [reflexivity|discriminate]].
  apply do_request_inv in H. pose proof (pure_ouser_grp p W cl [("access_token", VStr tok)] "" [("state", VStr st)] c) as P.
  destruct H as [(e & B1 & ->)|(i & c2 & B1 & B2)]; rewrite B1 in P; cbn in P; [left; split; [exact P|discriminate]|]. subst c2. clear B1.
  unfold service_request in B2. unfold bind in B2.
  match type of B2 with context [get_response ?a ?b ?x ?d ?e ?f ?g ?h ?i ?j] => destruct (get_response a b x d e f g h i j) as [r2 c2] eqn:G end.
  destruct (ouser_fields p W cl) as (F1 & F2 & F3 & F4 & F5 & F6 & F7 & F8 & _ & _ & _ & _ & _ & _ & _ & F9).
  assert (NE : no_empty_post (oauth_userinfo_svc p W cl) c) by (intros v; rewrite F7; now apply ouser_post_empty).
  apply (get_response_post _ _ _ _ _ _ _ _ _ _ _ _ NE) in G. cbv iota in G.
  destruct G as [[-> G]|(m0 & v & r0 & G1 & G2 & G3 & G4)].
  - left. destruct r2 as [x|e].
    + destruct (has_error x) eqn:EX.
      * injection B2 as <- <-. split; [reflexivity|]. intros m. unfold is_error_response. rewrite EX. discriminate.
      * destruct x as [x|x|x].
        -- cbn in EX. congruence.
        -- injection B2 as <- <-. split; [reflexivity|]. intros m. unfold is_error_response. rewrite EX. discriminate.
        -- rewrite F9 in B2. injection B2 as <- <-. split; [reflexivity|]. intros m. unfold is_error_response. rewrite EX. discriminate.
    + injection B2 as <- <-. split; [reflexivity|discriminate].
  - rewrite F7 in G3. rewrite F6 in G2. destruct r0 as [x|e].
    + right. eexists _, m0, v, x. split; [exact G1|]. split; [exact G2|]. destruct G4 as [->|[-> ->]].
      * destruct (has_error (RMsg x)) eqn:EX.
        -- injection B2 as <- <-. split; [exact G3|]. right. unfold is_error_response. rewrite EX. eauto.
        -- rewrite F8 in B2. unfold pass, ret in B2. injection B2 as <- <-. split; [exact G3|]. unfold is_error_response. rewrite EX. auto.
      * injection B2 as <- <-. split; [exact G3|]. eauto.
    + subst r2. pose proof (ouser_post_effect _ _ _ _ _ _ _ _ G3) as U. cbn in U. subst c2. injection B2 as <- <-.
      left. split; [reflexivity|discriminate].
Qed.

(** ** finalize after the authorization response *)
Definition oafter (p : provider) (W : env) (cl : client) (collect : bool) (ar : msg) (st : string) : M final :=
  t <- get_access_and_id_token_with (oauth_token_svc p W cl) W cl ar st collect ;;
  info <- (if has_service cl "userinfo" && truthy (t_access t) then
             match t_access t with
             | VStr a => r <- oauth_user_info p W cl st a ;; ret (msg_of r)
             | _ => raise OtherError
             end
           else match t_id t with
                | VDict (kv :: r) => ret (userinfo_in_id_token (kv :: r))
                | _ => ret []
                end) ;;
  bind_subject (t_id t) info st ;;;
  ret (FOk info (VStr st) (t_access t) (t_id t) (match dget "session_state" ar with Some v => v | None => VStr "" end)).
Lemma oauth_finalize_cases p W cl iss resp collect c r c' : oauth_finalize p W cl iss resp collect c = (r, c') ->
  (c' = c /\ forall i s a d x, r <> Ok (FOk i s a d x)) \/
  exists ar c1 st, oauth_finalize_auth W cl iss resp c = (Ok ar, c1) /\ is_error_message ar = false /\ dget "state" ar = Some (VStr st) /\
    oafter p W cl collect ar st c1 = (r, c').
Proof.
  unfold oauth_finalize, finalize_with. change (finalize_auth_with (pt_authz (oauth_parts p W cl)) iss resp) with (oauth_finalize_auth W cl iss resp).
  rewrite bind_run. destruct (oauth_finalize_auth W cl iss resp c) as [[ar|e] c1] eqn:E.
  - pose proof (oauth_finalize_auth_spec _ _ _ _ _ _ _ E) as F. cbn in F. destruct (is_error_message ar) eqn:Ee.
    + destruct F as [[_ ->]|[F _]]; [|discriminate]. unfold bind, lift, ret. intros H. left.
      destruct (dict_get "state" ar); [|injection H as <- <-; split; [reflexivity|discriminate]].
      destruct (dict_get "error" ar); injection H as <- <-; split; reflexivity || discriminate.
    + destruct F as [[F _]|[_ (s & F1 & _)]]; [congruence|]. rewrite F1. intros H. right. exists ar, c1, s. auto.
  - pose proof (oauth_finalize_auth_spec _ _ _ _ _ _ _ E) as F. cbn in F. subst c1. intros [= <- <-]. left. split; [reflexivity|discriminate].
Qed.
Definition answer_at (st : string) (o : op) : Prop :=
  match o with
  | Store _ _ t k => k = st /\ In t ["token_response"; "user_info"]
  | Bind x _ k => k = st /\ (x = "subject id" \/ x = "session id")
  | _ => False
  end.
Section After.
  Variable c00 : ctx.
  Notation writes := (writes rnd32 c00).
  Ltac wb := eapply (w_bind rnd32 rnd32_family c00).
  Ltac wr := apply (w_raise rnd32 c00).
  Lemma ow_after p W cl collect ar st : rnd32 st -> writes (answer_at st) (oafter p W cl collect ar st) any.
  Proof.
    intros Hk. unfold oafter. wb.
    { unfold get_access_and_id_token_with. wb; [now apply w_any_pure|]. intros rq _.
      wb; [apply w_lift; intros; exact I|]. intros rt _.
      wb; [apply w_lift; intros; exact I|]. intros idt _.
      assert (TE : writes (answer_at st) (tokens_from_endpoint_with (oauth_token_svc p W cl) W cl st) any).
      { unfold tokens_from_endpoint_with. wb.
        { eapply w_weaken; [now apply ow_tokens|]. intros [| ? ? t k| |]; cbn; try contradiction. intuition. }
        intros r _. wb; [apply w_lift; intros; exact I|]. intros a _. now apply w_ret. }
      destruct (one_of rt _).
      - wb; [apply w_lift; intros; exact I|]. intros a _. destruct collect; [exact TE|now apply w_ret].
      - destruct (one_of rt _); [exact TE|now apply w_ret]. }
    intros t _. wb.
    { destruct (_ && _).
      - destruct (t_access t) as [| | |a| |]; try wr. wb.
        + eapply w_weaken; [now apply ow_user_info|]. intros [| ? ? t0 k| |]; cbn; try contradiction. intuition.
        + intros r _. now apply (w_ret _ _ _ _ any).
      - destruct (t_id t) as [| | | | |[|? ?]]; now apply (w_ret _ _ _ _ any). }
    intros info _. wb; [|intros _ _; now apply w_ret].
    unfold bind_subject.
    assert (B1 : forall d, writes (answer_at st) (s <- lift (dict_get "sub" d) ;; bind_value "subject id" s st) any).
    { intros d. wb; [apply w_lift; intros; exact I|]. intros v _. apply w_bind_value; [assumption|apply in_sub|]. cbn. auto. }
    destruct (t_id t) as [| | | | |[|kv r]] eqn:Ti; try apply B1.
    wb; [now apply w_any_pure|]. intros c0 _.
    wb; [|intros _ _; apply B1].
    destruct c0; [|now apply (w_ret _ _ _ _ any)]. destruct (dget "sid" (kv :: r)); [|now apply (w_ret _ _ _ _ any)].
    apply w_bind_value; [assumption|apply in_sid|]. cbn. auto.
  Qed.
End After.
Lemma answer_at_frame st k ops : k <> st -> rnd32 k -> Forall (fun o => op_ok rnd32 o /\ answer_at st o) ops -> forall d,
  get_state (snd (crun d ops)) k = get_state d k.
Proof.
  intros Nk Kk. induction ops as [|o ops IH]; intros F d; [reflexivity|]. inversion F as [|? ? [O1 O2] F']; subst. cbn [crun].
  destruct (cstep d o) as [r d1] eqn:E. destruct (crun d1 ops) as [rs d2] eqn:E2. cbn [snd].
  specialize (IH F' d1). rewrite E2 in IH. cbn [snd] in IH. rewrite IH.
  replace d1 with (snd (cstep d o)) by now rewrite E. eapply sessions_isolated; [apply rnd32_family|exact O1|exact Kk|reflexivity|].
  destruct o; cbn in O2; try contradiction; left; intuition congruence.
Qed.
Lemma oauth_finalize_frame p W cl iss resp collect c r c' : closed rnd32 (sdb c) ->
  oauth_finalize p W cl iss resp collect c = (r, c') ->
  c' = set_db (sdb c') c /\
  (c' = c \/ exists st, rnd32 st /\ get_iss (sdb c) st = Ok (VStr iss) /\
     (forall i s a d x, r = Ok (FOk i s a d x) -> s = VStr st) /\
     forall k, rnd32 k -> k <> st -> get_state (sdb c') k = get_state (sdb c) k).
Proof.
  intros CL H. destruct (oauth_finalize_cases _ _ _ _ _ _ _ _ _ H) as [[-> _]|(ar & c1 & st & E1 & E2 & E3 & E4)].
  { split; [now rewrite set_db_same|auto]. }
  pose proof (oauth_finalize_auth_spec _ _ _ _ _ _ _ E1) as F. cbn in F. destruct F as [[F _]|[_ (s & F1 & F2 & F3 & F4 & F5 & F6 & F7 & _)]]; [congruence|].
  rewrite E3 in F1. injection F1 as <-.
  assert (Hk : rnd32 st) by (eapply closed_iss; [exact rnd32_no_dict|exact CL|exact F2]).
  assert (G1 : closed rnd32 (sdb c1)).
  { pose proof (ow_finalize_auth c W cl iss resp c (conj CL (eq_sym (set_db_same c))) _ _ E1) as (_ & (ops & O1 & O2) & _).
    rewrite O2. apply closed_run; [apply rnd32_family|exact CL|]. eapply Forall_impl; [|exact O1]. cbn. tauto. }
  destruct (ow_after c p W cl collect ar st Hk c1 (conj G1 F3) _ _ E4) as (W1 & (ops & O1 & O2) & _).
  split; [rewrite W1, F3; reflexivity|]. right. exists st. split; [exact Hk|]. split; [exact F2|]. split.
  - intros i s a d x ->. unfold oafter in E4. apply bind_ok in E4. destruct E4 as (? & ? & _ & E4).
    apply bind_ok in E4. destruct E4 as (? & ? & _ & E4). apply bind_ok in E4. destruct E4 as (? & ? & _ & E4). now injection E4 as <-.
  - intros k Kk Nk. rewrite O2, (answer_at_frame st k ops Nk Kk O1). unfold get_state. now rewrite F7.
Qed.

(** who the user is *)
Lemma oafter_ok p W cl collect ar st c info s tok idt ss c' : st <> "" -> oafter p W cl collect ar st c = (Ok (FOk info s tok idt ss), c') ->
  s = VStr st /\
  exists t c1 c2, get_access_and_id_token_with (oauth_token_svc p W cl) W cl ar st collect c = (Ok t, c1) /\ t_id t = idt /\ t_access t = tok /\
    (if has_service cl "userinfo" && truthy tok
     then exists a r, tok = VStr a /\ oauth_user_info p W cl st a c1 = (Ok r, c2) /\ info = msg_of r
     else c2 = c1 /\ info = match idt with VDict (kv :: r) => userinfo_in_id_token (kv :: r) | _ => [] end) /\
    match idt with
    | VDict (kv :: r) => exists sub, dget "sub" (kv :: r) = Some (VStr sub) /\ get_state_by_sub (sdb c') sub = Ok st
    | _ => exists sub, dget "sub" info = Some (VStr sub) /\ get_state_by_sub (sdb c') sub = Ok st
    end.
Proof.
  intros Ne. unfold oafter. intros H. apply bind_ok in H. destruct H as (t & c1 & E1 & H). apply bind_ok in H. destruct H as (inf & c2 & E2 & H).
  apply bind_ok in H. destruct H as ([] & c3 & E3 & H). injection H as <- <- <- <- _ <-. split; [reflexivity|].
  exists t, c1, c2. split; [exact E1|]. split; [reflexivity|]. split; [reflexivity|]. split.
  - destruct (_ && _).
    + destruct (t_access t) as [| | |a| |]; try discriminate. apply bind_ok in E2. destruct E2 as (r & c4 & E4 & E5). injection E5 as <- <-. eauto.
    + destruct (t_id t) as [| | | | |[|kv r]]; injection E2 as <- <-; auto.
  - assert (SB : forall d c0, (v <- lift (dict_get "sub" d) ;; bind_value "subject id" v st) c0 = (Ok tt, c3) ->
       exists sub, dget "sub" d = Some (VStr sub) /\ get_state_by_sub (sdb c3) sub = Ok st).
    { intros d c0 B. apply bind_ok in B. destruct B as (v & c4 & B1 & B2). unfold lift, dict_get in B1.
      destruct (dget "sub" d) as [w|]; [|discriminate]. injection B1 as <- <-. unfold bind_value in B2. destruct w as [| | |w| |]; try discriminate.
      exists w. split; [reflexivity|]. unfold on_db in B2. destruct (store_x2state w st "subject id" (sdb c0)) as [rr d'] eqn:E8. injection B2 as -> <-.
      unfold get_state_by_sub. eapply bind_now; [apply in_sub|exact Ne|exact E8]. }
    unfold bind_subject in E3. destruct (t_id t) as [| | | | |[|kv r]]; try (now apply SB in E3).
    apply bind_ok in E3. destruct E3 as (b & c6 & _ & E3). apply bind_ok in E3. destruct E3 as (? & c7 & _ & E3). now apply SB in E3.
Qed.
Lemma nameless_tokens p W cl ar st collect c t c1 : (forall c m v, e_vrf W "accesstoken" c m = Ok v -> dget (verified "id_token") v = None) ->
  dget (verified "id_token") ar = None ->
  get_access_and_id_token_with (oauth_token_svc p W cl) W cl ar st collect c = (Ok t, c1) -> t_id t = VNone.
Proof.
  intros NV NA H. unfold get_access_and_id_token_with in H. apply bind_ok in H. destruct H as (rq & c2 & _ & H).
  apply bind_ok in H. destruct H as (rt & c3 & _ & H). apply bind_ok in H. destruct H as (idt & c4 & E & H).
  assert (IV : idt = VNone).
  { destruct (one_of rt _) in E; unfold lift, dict_get in E; [rewrite NA in E; discriminate|]. now injection E as <- <-. }
  assert (TE : forall c t c', tokens_from_endpoint_with (oauth_token_svc p W cl) W cl st c = (Ok t, c') -> t_id t = VNone).
  { clear - NV. intros c t c' H. unfold tokens_from_endpoint_with in H. apply bind_ok in H. destruct H as (r & c2 & E & H).
    apply bind_ok in H. destruct H as (a & c3 & _ & H). injection H as <- _. cbn [t_id].
    destruct r as [m|x|x]; try reflexivity. destruct (otoken_accepted _ _ _ _ _ _ _ E) as (_ & _ & (m0 & v & V1 & V2) & _).
    cbn [msg_of]. rewrite V2 by discriminate. now rewrite (NV _ _ _ V1). }
  destruct (one_of rt _) in H.
  - apply bind_ok in H. destruct H as (a & c5 & _ & H). destruct collect; [now apply TE in H|]. now injection H as <- _.
  - destruct (one_of rt _) in H; [now apply TE in H|]. now injection H as <- _.
Qed.
Lemma nameless_never p W cl iss resp collect c info s tok idt ss c' : nameless W -> closed rnd32 (sdb c) ->
  oauth_finalize p W cl iss resp collect c <> (Ok (FOk info s tok idt ss), c').
Proof.
  intros (N1 & N2 & N3) CL H. destruct (oauth_finalize_cases _ _ _ _ _ _ _ _ _ H) as [[_ X]|(ar & c1 & st & E1 & E2 & E3 & E4)]; [now eapply X|].
  pose proof (oauth_finalize_auth_spec _ _ _ _ _ _ _ E1) as F. cbn in F. destruct F as [[F _]|[_ (s0 & F1 & F2 & F3 & F4 & F5 & F6 & F7 & m0 & v & F8 & F9 & F10)]]; [congruence|].
  rewrite E3 in F1. injection F1 as <-.
  assert (Hk : rnd32 st) by (eapply closed_iss; [exact rnd32_no_dict|exact CL|exact F2]).
  assert (Ne : st <> "") by (destruct rnd32_family as [X _]; now apply X).
  assert (G1 : closed rnd32 (sdb c1)).
  { pose proof (ow_finalize_auth c W cl iss resp c (conj CL (eq_sym (set_db_same c))) _ _ E1) as (_ & (ops & O1 & O2) & _).
    rewrite O2. apply closed_run; [apply rnd32_family|exact CL|]. eapply Forall_impl; [|exact O1]. cbn. tauto. }
  destruct (oafter_ok _ _ _ _ _ _ _ _ _ _ _ _ _ Ne E4) as (_ & t & c2 & c3 & T1 & T2 & T3 & T4 & T5).
  assert (NA : dget (verified "id_token") ar = None).
  { apply expires_spec in F10. pose proof (N1 _ _ _ F9) as Z. destruct (dget "expires_in" v) in F10.
    - destruct F10 as (n & _ & ->). now rewrite dget_dset_neq by discriminate.
    - now subst ar. }
  pose proof (nameless_tokens _ _ _ _ _ _ _ _ _ N2 NA T1) as I0. rewrite T2 in I0. rewrite I0 in T4, T5.
  destruct T5 as (sub & S1 & _). destruct (has_service cl "userinfo" && truthy tok).
  - destruct T4 as (a & r & -> & U & ->). destruct r as [m|x|x]; try discriminate S1. cbn [msg_of] in S1.
    assert (G2 : closed rnd32 (sdb c2)).
    { assert (PW : writes rnd32 c (fun _ => True) (get_access_and_id_token_with (oauth_token_svc p W cl) W cl ar st collect) any).
      { unfold get_access_and_id_token_with. eapply (w_bind rnd32 rnd32_family c); [now apply w_any_pure|]. intros rq _.
        eapply (w_bind rnd32 rnd32_family c); [apply w_lift; intros; exact I|]. intros rt _.
        eapply (w_bind rnd32 rnd32_family c); [apply w_lift; intros; exact I|]. intros idt0 _.
        assert (TE : writes rnd32 c (fun _ => True) (tokens_from_endpoint_with (oauth_token_svc p W cl) W cl st) any) by (eapply w_weaken; [now apply ow_endpoint|auto]).
        destruct (one_of rt _).
        - eapply (w_bind rnd32 rnd32_family c); [apply w_lift; intros; exact I|]. intros a0 _. destruct collect; [exact TE|now apply w_ret].
        - destruct (one_of rt _); [exact TE|now apply w_ret]. }
      destruct (PW c1 (conj G1 F3) _ _ T1) as (_ & (ops & O1 & O2) & _). rewrite O2. apply closed_run; [apply rnd32_family|exact G1|]. eapply Forall_impl; [|exact O1]. cbn. tauto. }
    destruct (oauth_user_info_changes _ _ _ _ _ _ _ _ G2 U) as [[_ X]|(hdr & m1 & v1 & m2 & U1 & U2 & U3 & U4)]; [now destruct (X m)|].
    destruct U4 as [U4|[e U4]]; [|discriminate]. injection U4 as ->. apply ouser_post_effect in U3. destruct U3 as (_ & _ & _ & U3).
    destruct (N3 _ _ _ U2) as [Z1 Z2]. rewrite (U3 Z2), Z1 in S1. discriminate.
  - destruct T4 as [_ ->]. discriminate.
Qed.

(** ** the token request of a session, whatever was called in between *)
Lemma oinit_closed W cl reqs beh c r c' : rnd32 (e_state W) -> plain_conf (conf_of cl "authorization") -> no_state beh -> closed rnd32 (sdb c) ->
  oauth_init W cl reqs beh c = (r, c') -> closed rnd32 (sdb c').
Proof.
  intros K PC NS CL H. destruct (ow_init c W cl reqs beh K PC NS c (conj CL (eq_sym (set_db_same c))) _ _ H) as (_ & (ops & O1 & O2) & _).
  rewrite O2. apply closed_run; [apply rnd32_family|exact CL|]. eapply Forall_impl; [|exact O1]. cbn. tauto.
Qed.
Lemma otoken_request_of_session p cl os0 os1 c0 W0 W reqs beh u k c1 code ru ar ep :
  plain_conf (conf_of cl "authorization") -> sdb c0 = [] -> Forall ocall_ok os0 -> Forall ocall_ok os1 ->
  rnd32 (e_state W0) -> no_state beh -> (forall m v, e_hash W0 m v <> "") ->
  oauth_init W0 cl reqs beh (run_ocalls p cl os0 c0) = (Ok (u, k), c1) ->
  (forall o, In o os1 -> oleaves k o) ->
  let c := run_ocalls p cl os1 c1 in
  (exists rq, get_item (sdb c1) cAuthzRequest "auth_request" k = Ok rq /\ dget "redirect_uri" rq = Some (VStr ru)) -> ru <> "" ->
  get_item (sdb c) cAuthzResponse "auth_response" k = Ok ar -> dget "code" ar = Some (VStr code) -> code <> "" ->
  dget "token_endpoint" (provider_info c) = Some (VStr ep) ->
  only_sends (fun http => oauth_tokens p (with_http W http) cl k) c
    (token_wire k code ru ep (fun txt => cl_pkce cl = true -> forall n m, pkce_setting c0 n m -> 0 < n ->
        form_has txt "code_verifier" (unreserved (e_rand W0) n))).
Proof.
  intros PC E0 OK0 OK1 K NS HH H LV c (rq & R1 & R2) Rne A1 A2 Cne EP.
  assert (CL00 : closed rnd32 (sdb c0)) by (rewrite E0; apply closed_nil).
  pose proof (oclosed_reach p cl os0 c0 PC OK0 CL00) as CL0.
  assert (CL1 : closed rnd32 (sdb c1)) by (eapply oinit_closed; eauto).
  destruct (oauth_init_spec rnd32 _ _ _ _ _ _ _ _ rnd32_family K PC NS HH H)
    as (-> & args & req & ep0 & _ & _ & _ & _ & _ & _ & _ & _ & _ & _ & _ & _ & _ & C4 & _).
  assert (Sne : e_state W0 <> "") by (destruct rnd32_family as [X _]; now apply X).
  assert (SS : exists s, get_state (sdb c1) (e_state W0) = Ok s) by (eapply get_item_state; eauto).
  assert (Q1 : get_item (sdb c) cAuthzRequest "auth_request" (e_state W0) = Ok rq).
  { unfold c. rewrite ocalls_keep; auto. cbn. intuition discriminate. }
  assert (Q2 : get_item (sdb c) cMessage "pkce" (e_state W0) = get_item (sdb c1) cMessage "pkce" (e_state W0)).
  { unfold c. rewrite ocalls_keep; auto. cbn. intuition discriminate. }
  assert (P := oauth_token_sends p W cl (e_state W0) c ar rq code ru ep Sne Cne Rne A1 A2 Q1 R2 EP).
  intros h1 h2 Hh. apply P. intros u0 m0 b0 hd (X1 & X2 & txt & X3 & X4 & X5 & X6 & X7 & X8). apply Hh.
  split; [exact X1|]. split; [exact X2|]. exists txt. do 5 (split; [assumption|]). intros Hp n m PS Hn.
  destruct (C4 Hp) as (n' & m' & v & D1 & D2 & D3 & D4 & D5 & D6).
  assert (EQ : n' = n /\ m' = m).
  { destruct (ocalls_write p cl os0 PC OK0 c0 CL00) as [HKP _].
    rewrite HKP in D1. unfold pkce_setting in D1, PS. cbn [add_on set_db] in D1.
    destruct D1 as (cf & F1 & F2 & F3), PS as (cf' & G1 & G2 & G3). rewrite F1 in G1. injection G1 as <-.
    split.
    - destruct (dget "code_challenge_length" cf) as [x|]; [|congruence]. destruct F2 as (z & -> & ->), G2 as (z' & Z & ->). congruence.
    - destruct (dget "code_challenge_method" cf); congruence. }
  destruct EQ as [-> ->].
  assert (Vne : v <> "").
  { intros C. subst v. pose proof (unreserved_length (e_rand W0) n) as L. rewrite C in L. cbn in L. lia. }
  rewrite D6 in Q2. subst v.
  destruct (msg_new_total cMessage [("code_verifier", VStr (unreserved (e_rand W0) n)); ("code_challenge_method", VStr m)] eq_refl) as [it Hit].
  rewrite Hit in Q2. apply (X8 Hp it); auto.
  eapply (msg_new_get' cMessage); [reflexivity| |exact Hit|reflexivity|reflexivity|assumption].
  unfold uniq. cbn. repeat constructor; cbn; intuition discriminate.
Qed.
