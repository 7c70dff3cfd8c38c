(** Property theorems C78: an honest login at a handler that keeps clients for many providers.
    Proofs in P_Whole.v, specification in S_Whole.v, S_Honest.v, S_Begin.v, S_After.v and S_Multi.v. *)
From Verif Require Import Base BaseP Json JsonP Msg M_State S_State P_State M_Ctx M_Codec M_Authz M_ClientAuth M_Service M_Token M_Handler
  S_Service S_Token S_Handler S_Flow S_Trace S_Sched S_Retry S_Route S_Multi P_Ctx P_Authz P_Codec P_ClientAuth P_Service P_Wire P_Token
  P_Token2 P_Handler P_Flow P_Trace P_Flow2 P_Handler2 P_Handler3 P_Handler4 P_Route P_Sim P_SimK P_Sched P_Retry P_Multi S_Traffic S_Honest P_Honest P_Honest2 P_Honest3 P_Honest4
  S_Begin P_Begin P_Begin2 S_After P_After S_Whole P_Whole Ex T_Handler T_Flow T_Login T_Verify T_Honest T_Begin T_After.

(** C78: whatever was done at the handler before, for whatever providers, a login begins at a
    provider whose client is set up. *)
Theorem C78_login_begins : forall h i cl os W reqs beh,
  fresh_handler h -> dget i h = Some cl -> Forall hcall_ok os -> rnd32 (e_state W) ->
  set_up cl (cl_ctx cl) -> fair_args W (cl_ctx cl) reqs -> no_request_object beh ->
  exists u, hanswer (run_hcalls h os) (HInit W i reqs beh) = Ok (AUrl u (e_state W)).
Proof.
  intros h i cl os W reqs beh F D OK K SU FA NR. destruct (fresh_history h i cl os D OK) as (cs & E & OC & _).
  destruct (proj2 F _ _ D) as (PC & E0 & _).
  destruct (C76_login_begins W cl cs (cl_ctx cl) reqs beh PC E0 OC K SU FA NR) as (u & c' & R).
  exists u. rewrite answer_at. cbn [client_for client_call]. rewrite E. cbn [cl_ctx set_ctx]. rewrite answer_ctx. cbn [answer_of]. rewrite R. reflexivity.
Qed.
Print Assumptions C78_login_begins.

(** C78: and it completes.  Client [cl] of the handler uses the code flow with provider [i],
    which is honest (see C76: it acts on what the URL [u] of the login says); the other
    providers may be anything, and whatever is done for them and for other logins at provider
    [i] before ([os0]) and meanwhile ([os1]), the user is logged in. *)
Theorem C78_login_completes : forall h i cl os0 os1 W0 W reqs beh u k ep resp collect code ru n sub tok tm um idt ch meth,
  fresh_handler h -> dget i h = Some cl -> Forall hcall_ok os0 -> Forall hcall_ok os1 ->
  rnd32 (e_state W0) -> (forall m v, e_hash W0 m v <> "") ->
  (* the client *)
  set_up cl (cl_ctx cl) -> fair_args W0 (cl_ctx cl) reqs -> no_request_object beh ->
  dget "authorization_endpoint" (provider_info (cl_ctx cl)) = Some (VStr ep) -> u_query (urlsplit ep) = "" ->
  chosen (cl_ctx cl) reqs "response_type" (first_response_type (cl_ctx cl)) = Some (VStr "code") ->
  (cl_pkce cl = true -> exists len m, pkce_setting (cl_ctx cl) len m /\ 0 < len) ->
  has_service cl "accesstoken" = true -> uses_secret (cl_ctx cl) ->
  (* the login is begun; what the other calls are about *)
  hanswer (run_hcalls h os0) (HInit W0 i reqs beh) = Ok (AUrl u k) ->
  (forall o, In o os1 -> elsewhere (cl_ctx cl) i k n (os0 ++ os1) o) ->
  (* the URL *)
  query_has u "redirect_uri" ru -> query_has u "nonce" n ->
  (cl_pkce cl = true -> query_has u "code_challenge" ch /\ query_has u "code_challenge_method" meth) ->
  (* the provider *)
  (forall s, query_has u "state" s -> code_response s code resp) ->
  (forall ar, msg_new cAuthzResponse resp = Ok ar -> verifies W "authorization" ar ar) ->
  token_endpoint_honest W (cl_ctx cl) code ru (if cl_pkce cl then Some (pkce_check (e_hash W0) ch meth) else None) tm ->
  token_answer tok tm -> id_claims n sub idt ->
  (forall m, msg_new cTokenResponse tm = Ok m -> verifies W "accesstoken" m (dset (verified "id_token") (VDict idt) m)) ->
  (has_service cl "userinfo" = true -> dget "pre_construct" (conf_of cl "userinfo") = None /\ userinfo_endpoint_honest W (cl_ctx cl) tok um /\
     about_user sub um /\ (forall m, msg_new cMessage um = Ok m -> verifies W "userinfo" m m)) ->
  exists info ss, hanswer (run_hcalls h (os0 ++ HInit W0 i reqs beh :: os1)) (HFinalize W i resp collect) =
      Ok (AFinal (FOk info (VStr k) (VStr tok) (VDict idt) ss)) /\
    (has_service cl "userinfo" = true -> shows um info).
Proof.
  intros h i cl os0 os1 W0 W reqs beh u k ep resp collect code ru n sub tok tm um idt ch meth F D OK0 OK1 K HH SU FA NR EP Q RT PK HT US H O RU NN CH CR VA TE TA IC VT UI.
  destruct (fresh_history h i cl os0 D OK0) as (cs0 & E & OC0 & _).
  destruct (proj2 F _ _ D) as (PC & E0 & EI & _).
  rewrite answer_at in H. cbn [client_for client_call] in H. rewrite E in H. cbn [cl_ctx set_ctx] in H. rewrite answer_ctx in H. cbn [answer_of] in H.
  destruct (init_authorization W0 cl reqs beh (run_calls cl cs0 (cl_ctx cl))) as [r c1] eqn:EH.
  destruct r as [[u' k']|]; [|discriminate]. cbn in H. injection H as Eu Ek. rewrite Eu, Ek in EH.
  assert (KK : k = e_state W0).
  { destruct (C76_login_begins W0 cl cs0 (cl_ctx cl) reqs beh PC E0 OC0 K SU FA NR) as (u2 & c2 & R). congruence. }
  assert (E1 : dget i (run_hcalls h (os0 ++ [HInit W0 i reqs beh])) = Some (set_ctx c1 cl)).
  { rewrite snoc_run, run_at. cbn [client_for client_call]. rewrite (at_same _ _ _ _ _ E). cbn [run_call]. now rewrite EH. }
  destruct (next_history h i cl c1 _ os1 E1 OK1) as (cs1 & E2 & OC1 & P).
  rewrite <- app_assoc in E2. cbn [List.app] in E2.
  assert (O' : forall c, In c cs1 -> leaves k c /\ no_other_login (cl_ctx cl) n c).
  { intros c Hc. destruct (P c Hc) as (done & o & I1 & I2 & <- & R). specialize (O o I2).
    destruct o; cbn [client_call leaves no_other_login elsewhere] in *; try (split; exact Logic.I).
    - cbn [client_for] in R. injection R as R. destruct O as [O1 O2]. split; [exact O1|exact (O2 R)].
    - exfalso. destruct O as (O1 & j & Nj & B). cbn [client_for] in R.
      assert (OD : Forall hcall_ok done).
      { rewrite Forall_forall in OK0, OK1 |- *. intros x Hx. apply I1, in_app_or in Hx. destruct Hx as [Hx|Hx]; [|auto].
        apply in_app_or in Hx. destruct Hx as [Hx|[<-|[]]]; [auto|exact K]. }
      rewrite Forall_forall in OK1. pose proof (OK1 _ I2) as KS. cbn in KS.
      destruct (route_sound h done state i F OD KS R) as (_ & _ & _ & W' & reqs' & beh' & I3 & ES).
      apply I1 in I3. rewrite <- app_assoc in I3. apply in_app_or in I3. destruct I3 as [I3|[I3|I3]].
      + apply Nj. symmetry. eapply B; [apply in_or_app; left; exact I3|exact ES].
      + injection I3 as -> _ _. congruence.
      + apply Nj. symmetry. eapply B; [apply in_or_app; right; exact I3|exact ES]. }
  destruct (C76_from_the_url_to_the_user cl cs0 cs1 (cl_ctx cl) W0 W reqs beh u k c1 ep resp collect code ru n sub tok tm um idt ch meth
    PC E0 OC0 OC1 K HH SU FA NR EP Q RT PK HT US EH O' RU NN CH CR VA TE TA IC VT UI) as (info & ss & c' & R & RI).
  exists info, ss. split; [|exact RI].
  rewrite answer_at. cbn [client_for client_call]. rewrite E2. cbn [cl_ctx set_ctx]. rewrite answer_ctx. cbn [answer_of].
  rewrite EI in R. rewrite R. reflexivity.
Qed.
Print Assumptions C78_login_completes.

(** The situation of the next theorems: after any calls [os0] at the handler, a call of
    finalize completes the code-flow login [k] at provider [i]; then come any calls [os1] that
    do not get, refresh or clear the tokens of this login. *)
Lemma at_handler h i cl os0 os1 W k code resp collect info tok idt ss h1 cl0 cl1 rq :
  fresh_handler h -> dget i h = Some cl -> Forall hcall_ok os0 -> Forall hcall_ok os1 -> begun_only_at k i (os0 ++ os1) ->
  (forall name c m v, e_vrf W name c m = Ok v -> uniq v) -> code_only k code W resp ->
  dget i (run_hcalls h os0) = Some cl0 ->
  get_item (sdb (cl_ctx cl0)) cAuthzRequest "auth_request" k = Ok rq -> dget "response_type" rq = Some (VList [VStr "code"]) ->
  h_finalize W i resp collect (run_hcalls h os0) = (Ok (FOk info (VStr k) (VStr tok) (VDict idt) ss), h1) ->
  dget i h1 = Some cl1 -> (forall o, In o os1 -> hspares i k o) ->
  exists cs0 cs1, plain_client cl /\ sdb (cl_ctx cl) = [] /\ Forall call_ok cs0 /\ Forall call_ok cs1 /\
    get_item (sdb (run_calls cl cs0 (cl_ctx cl))) cAuthzRequest "auth_request" k = Ok rq /\
    finalize W cl i resp collect (run_calls cl cs0 (cl_ctx cl)) = (Ok (FOk info (VStr k) (VStr tok) (VDict idt) ss), cl_ctx cl1) /\
    (forall c, In c cs1 -> spares k c) /\
    dget i (run_hcalls h1 os1) = Some (set_ctx (run_calls cl cs1 (cl_ctx cl1)) cl) /\
    client_of_session (run_hcalls h1 os1) k = Ok i /\ rnd32 k /\
    forall os2, Forall hcall_ok os2 -> (forall o, In o os2 -> hleaves k o) -> client_of_session (run_hcalls (run_hcalls h1 os1) os2) k = Ok i.
Proof.
  intros F D OK0 OK1 B HU CO D0 RQ RT H D1 SP. destruct (proj2 F _ _ D) as (PC & E0 & _).
  destruct (fresh_history h i cl os0 D OK0) as (cs0 & E & OC0 & _).
  rewrite E in D0. injection D0 as <-. cbn [cl_ctx set_ctx] in RQ.
  assert (H1 : h1 = run_hcalls h (os0 ++ [HFinalize W i resp collect])) by (rewrite snoc_run; cbn [run_hcall]; now rewrite H).
  unfold h_finalize, on_client in H. rewrite E in H. cbn [cl_ctx set_ctx] in H.
  change (finalize W (set_ctx (run_calls cl cs0 (cl_ctx cl)) cl)) with (finalize W cl) in H.
  destruct (finalize W cl i resp collect (run_calls cl cs0 (cl_ctx cl))) as [r c1] eqn:EF.
  assert (Er : r = Ok (FOk info (VStr k) (VStr tok) (VDict idt) ss)) by congruence. rewrite Er in EF.
  assert (Eh : h1 = dset i (set_ctx c1 (set_ctx (run_calls cl cs0 (cl_ctx cl)) cl)) (run_hcalls h os0)) by congruence.
  assert (X : dget i h1 = Some (set_ctx c1 cl)) by (rewrite Eh, dget_dset_eq; reflexivity).
  rewrite X in D1. injection D1 as <-. cbn [cl_ctx set_ctx].
  rewrite H1 in X. destruct (next_history h i cl c1 _ os1 X OK1) as (cs1 & E2 & OC1 & P).
  assert (SP' : forall c, In c cs1 -> spares k c).
  { intros c Hc. destruct (P c Hc) as (done & o & _ & I2 & <- & R). destruct (SP o I2) as (S1 & S2). split.
    - unfold tame_call. rewrite world_call. destruct (hworld o) as [W'|] eqn:EW; [exact (S1 _ eq_refl)|exact Logic.I].
    - rewrite (about_concerns _ _ _ k R). destruct S2 as [S2|S2]; [left; exact S2|right; destruct o; cbn in *; auto]. }
  exists cs0, cs1. rewrite H1, <- run_app. split; [exact PC|]. split; [exact E0|]. split; [exact OC0|]. split; [exact OC1|]. split; [exact RQ|].
  split; [exact EF|]. split; [exact SP'|]. split; [exact E2|].
  destruct (after_login cl cs0 cs1 (cl_ctx cl) W i k code resp collect info tok idt ss c1 rq PC E0 OC0 OC1 HU CO RQ RT EF SP') as (K & (CL & _ & G) & _).
  assert (KN : forall os2, Forall hcall_ok os2 -> (forall o, In o os2 -> hleaves k o) ->
    client_of_session (run_hcalls h (((os0 ++ [HFinalize W i resp collect]) ++ os1) ++ os2)) k = Ok i).
  { intros os2 OK2 LV. destruct (next_history h i cl _ _ os2 E2 OK2) as (cs2 & E3 & OC2 & P2).
    apply route_known; [exact F| |exact K| |].
    - apply Forall_app. split; [apply Forall_app; split; [apply Forall_app; split; [exact OK0|apply Forall_cons; [exact Logic.I|constructor]]|exact OK1]|exact OK2].
    - intros W' iss' reqs' beh' J EK. rewrite <- !app_assoc in J. cbn [List.app] in J. apply in_app_or in J. destruct J as [J|[J|J]]; [|discriminate J|apply in_app_or in J; destruct J as [J|J]].
      + eapply B; [apply in_or_app; left; exact J|exact EK].
      + eapply B; [apply in_or_app; right; exact J|exact EK].
      + destruct (LV _ J EK).
    - exists (set_ctx (run_calls cl cs2 (run_calls cl cs1 c1)) cl), (VStr i). split; [exact E3|]. cbn [cl_ctx set_ctx].
      apply calls_iss; [exact PC|exact OC2|exact K| |exact CL|exact G].
      intros c Hc. destruct (P2 c Hc) as (done & o & _ & I2 & <- & _). specialize (LV o I2). destruct o; exact LV || exact Logic.I. }
  split; [|split; [exact K|]].
  - specialize (KN [] (Forall_nil _) (fun o (X0 : In o []) => match X0 with end)). now rewrite app_nil_r in KN.
  - intros os2 OK2 LV. rewrite <- run_app. exact (KN os2 OK2 LV).
Qed.

(** C78: the handler finds the login by its key, gives its access token until that expires, and
    says that the user is logged in until the ID Token expires. *)
Theorem C78_login_is_kept : forall h i cl os0 os1 W k code resp collect info tok idt ss h1 cl0 cl1 rq,
  fresh_handler h -> dget i h = Some cl -> Forall hcall_ok os0 -> Forall hcall_ok os1 -> begun_only_at k i (os0 ++ os1) ->
  (forall name c m v, e_vrf W name c m = Ok v -> uniq v) -> code_only k code W resp ->
  dget i (run_hcalls h os0) = Some cl0 ->
  get_item (sdb (cl_ctx cl0)) cAuthzRequest "auth_request" k = Ok rq -> dget "response_type" rq = Some (VList [VStr "code"]) ->
  h_finalize W i resp collect (run_hcalls h os0) = (Ok (FOk info (VStr k) (VStr tok) (VDict idt) ss), h1) ->
  dget i h1 = Some cl1 -> (forall o, In o os1 -> hspares i k o) ->
  let h2 := run_hcalls h1 os1 in
  client_of_session h2 k = Ok i /\
  forall it, stored_tokens (sdb (cl_ctx cl1)) k it -> forall W1,
    (tok <> "" -> 0 <= e_now W1 -> (dget "expires_in" it = None -> dget "__expires_at" it = None) ->
       valid_until it (e_now W) (e_now W1) tok (fst (h_valid_token W1 k h2)))%Z /\
    (forall z, dget (verified (verified "id_token")) it = None -> dget "exp" idt = Some (VInt z) ->
       fst (h_active W1 k h2) = Ok (e_now W1 <? z)%Z).
Proof.
  intros h i cl os0 os1 W k code resp collect info tok idt ss h1 cl0 cl1 rq F D OK0 OK1 B HU CO D0 RQ RT H D1 SP h2.
  destruct (at_handler h i cl os0 os1 W k code resp collect info tok idt ss h1 cl0 cl1 rq F D OK0 OK1 B HU CO D0 RQ RT H D1 SP)
    as (cs0 & cs1 & PC & E0 & OC0 & OC1 & RQ' & EF & SP' & E2 & RO & K & LT).
  split; [exact RO|]. intros it ST W1. split.
  - intros Ne P X. unfold h_valid_token, on_session. unfold h2. rewrite RO. unfold on_client. rewrite E2. cbn [cl_ctx set_ctx read_db fst].
    exact (C77_token_of_the_login cl cs0 cs1 (cl_ctx cl) W i k code resp collect info tok idt ss (cl_ctx cl1) rq it (e_now W1) PC E0 OC0 OC1 HU CO RQ' RT EF SP' Ne P ST X).
  - intros z NV EX. unfold h_active, on_session. unfold h2. rewrite RO. unfold on_client. rewrite E2. cbn [cl_ctx set_ctx read_db fst].
    exact (C77_user_stays_logged_in cl cs0 cs1 (cl_ctx cl) W i k code resp collect info tok idt ss (cl_ctx cl1) rq it (e_now W1) z PC E0 OC0 OC1 HU CO RQ' RT EF SP' ST NV EX).
Qed.
Print Assumptions C78_login_is_kept.

(** C78: with the session key alone, the user info can be asked for again, and the token can be
    refreshed, at an honest provider; then the new token is the one the handler gives. *)
Theorem C78_user_info_by_the_key : forall h i cl os0 os1 W W1 k code resp collect info tok idt ss h1 cl0 cl1 rq sub um,
  fresh_handler h -> dget i h = Some cl -> Forall hcall_ok os0 -> Forall hcall_ok os1 -> begun_only_at k i (os0 ++ os1) ->
  (forall name c m v, e_vrf W name c m = Ok v -> uniq v) -> code_only k code W resp ->
  dget i (run_hcalls h os0) = Some cl0 ->
  get_item (sdb (cl_ctx cl0)) cAuthzRequest "auth_request" k = Ok rq -> dget "response_type" rq = Some (VList [VStr "code"]) ->
  h_finalize W i resp collect (run_hcalls h os0) = (Ok (FOk info (VStr k) (VStr tok) (VDict idt) ss), h1) ->
  dget i h1 = Some cl1 -> (forall o, In o os1 -> hspares i k o) ->
  dget "sub" idt = Some (VStr sub) -> tok <> "" ->
  has_service cl "userinfo" = true -> dget "pre_construct" (conf_of cl "userinfo") = None ->
  userinfo_endpoint_honest W1 (cl_ctx cl) tok um -> about_user sub um -> (forall m, msg_new cMessage um = Ok m -> verifies W1 "userinfo" m m) ->
  exists m, hanswer (run_hcalls h1 os1) (HUserInfo W1 k tok) = Ok (AResp (RMsg m)) /\ shows um m.
Proof.
  intros h i cl os0 os1 W W1 k code resp collect info tok idt ss h1 cl0 cl1 rq sub um F D OK0 OK1 B HU CO D0 RQ RT H D1 SP IS Ne HS NP UE AU VU.
  destruct (at_handler h i cl os0 os1 W k code resp collect info tok idt ss h1 cl0 cl1 rq F D OK0 OK1 B HU CO D0 RQ RT H D1 SP)
    as (cs0 & cs1 & PC & E0 & OC0 & OC1 & RQ' & EF & SP' & E2 & RO & K & LT).
  destruct (C77_user_info_again cl cs0 cs1 (cl_ctx cl) W W1 i k code resp collect info tok idt ss (cl_ctx cl1) rq sub um
    PC E0 OC0 OC1 HU CO RQ' RT EF SP' IS Ne HS NP UE AU VU) as (m & c' & R & S).
  exists m. split; [|exact S]. rewrite answer_at. cbn [client_for client_call]. rewrite RO, E2. cbn [cl_ctx set_ctx]. rewrite answer_ctx. cbn [answer_of].
  now rewrite R.
Qed.
Print Assumptions C78_user_info_by_the_key.

Theorem C78_refresh_by_the_key : forall h i cl os0 os1 W W1 k code resp collect info tok idt ss h1 cl0 cl1 rq scope rt tok2 tm o,
  fresh_handler h -> dget i h = Some cl -> Forall hcall_ok os0 -> Forall hcall_ok os1 -> begun_only_at k i (os0 ++ os1) ->
  (forall name c m v, e_vrf W name c m = Ok v -> uniq v) -> code_only k code W resp ->
  dget i (run_hcalls h os0) = Some cl0 ->
  get_item (sdb (cl_ctx cl0)) cAuthzRequest "auth_request" k = Ok rq -> dget "response_type" rq = Some (VList [VStr "code"]) ->
  h_finalize W i resp collect (run_hcalls h os0) = (Ok (FOk info (VStr k) (VStr tok) (VDict idt) ss), h1) ->
  dget i h1 = Some cl1 -> (forall o, In o os1 -> hspares i k o) ->
  can_refresh cl (cl_ctx cl) -> registered_secret (cl_ctx cl) -> (forall it, stored_tokens (sdb (cl_ctx cl1)) k it -> gives_refresh_token rt it) ->
  refresh_endpoint_honest W1 (cl_ctx cl) rt tm -> token_answer tok2 tm -> no_private tm ->
  (forall m, msg_new cTokenResponse tm = Ok m -> verifies W1 "refresh_token" m (with_id_token o m)) ->
  let h2 := run_hcalls h1 os1 in
  exists m, hanswer h2 (HRefresh W1 k scope) = Ok (AResp (RMsg m)) /\ dget "access_token" m = Some (VStr tok2) /\
    forall W2, (0 <= e_now W2)%Z ->
      valid_until tm (e_now W1) (e_now W2) tok2 (fst (h_valid_token W2 k (run_hcall h2 (HRefresh W1 k scope)))).
Proof.
  intros h i cl os0 os1 W W1 k code resp collect info tok idt ss h1 cl0 cl1 rq scope rt tok2 tm o F D OK0 OK1 B HU CO D0 RQ RT H D1 SP CR RS GR RE TA NPR VR h2.
  destruct (at_handler h i cl os0 os1 W k code resp collect info tok idt ss h1 cl0 cl1 rq F D OK0 OK1 B HU CO D0 RQ RT H D1 SP)
    as (cs0 & cs1 & PC & E0 & OC0 & OC1 & RQ' & EF & SP' & E2 & RO & K & LT).
  destruct (C77_refresh_at_an_honest_provider cl cs0 cs1 (cl_ctx cl) W W1 i k code resp collect info tok idt ss (cl_ctx cl1) rq scope rt tok2 tm o
    PC E0 OC0 OC1 HU CO RQ' RT EF SP' CR RS GR RE TA NPR VR) as (m & c' & R & A & V & _).
  exists m. unfold h2. split; [|split; [exact A|]].
  - rewrite answer_at. cbn [client_for client_call]. rewrite RO, E2. cbn [cl_ctx set_ctx]. rewrite answer_ctx. cbn [answer_of]. now rewrite R.
  - intros W2 P. unfold h_valid_token, on_session. fold h2. fold h2 in RO, E2.
    assert (RO2 : client_of_session (run_hcall h2 (HRefresh W1 k scope)) k = Ok i).
    { apply (LT [HRefresh W1 k scope]); [apply Forall_cons; [exact K|constructor]|]. intros x [<-|[]]. exact Logic.I. }
    rewrite RO2. unfold on_client. rewrite run_at. cbn [client_for client_call]. rewrite RO, (at_same _ _ _ _ _ E2).
    cbn [cl_ctx set_ctx read_db fst run_call]. rewrite R. cbn [snd]. exact (V (e_now W2) P).
Qed.
Print Assumptions C78_refresh_by_the_key.

(** ** the hypotheses are met: a handler with two providers.  A login at the other provider is
    begun before and is cleared, and another one at the same provider is begun meanwhile. *)
Definition wh_op := "https://op.example".
Definition wh_op2 := "https://op2.example".
Definition wh_before : list hcall := [HInit ex_env2 wh_op2 [] None].
Definition wh_between : list hcall :=
  [HInit lg_env wh_op [] None; HFinalize ex_env wh_op2 [("code", VStr "x"); ("state", VStr ex_key2)] false; HClear ex_key2].
Ltac in_list H := repeat (destruct H as [H|H]; [try discriminate H|]); try contradiction H.
Example ex_C78_begin : fresh_handler ex_handler /\ dget wh_op ex_handler = Some ex_client /\ cl_ctx ex_client = ex_ctx /\
  Forall hcall_ok wh_before /\ Forall hcall_ok wh_between /\
  (forall o, In o wh_between -> elsewhere ex_ctx wh_op ex_state ex_nonce (wh_before ++ wh_between) o) /\
  exists u, hanswer (run_hcalls ex_handler wh_before) (HInit ex_env wh_op [] None) = Ok (AUrl u ex_state) /\
    query_has u "redirect_uri" "https://rp.example/cb" /\ query_has u "nonce" ex_nonce /\ query_has u "state" ex_state /\
    query_has u "code_challenge" ho_ch /\ query_has u "code_challenge_method" "S256".
Proof.
  assert (U : rnd32 lg_state /\ rnd32 ex_key2) by (split; split; reflexivity). destruct U as [R1 R2].
  split; [exact ex_fresh|]. split; [reflexivity|]. split; [reflexivity|].
  split; [apply Forall_cons; [exact R2|constructor]|].
  split; [apply Forall_cons; [exact R1|apply Forall_cons; [exact Logic.I|apply Forall_cons; [exact R2|constructor]]]|].
  split.
  { intros o [<-|[<-|[<-|[]]]].
    - cbn [elsewhere]. split; [vm_compute; discriminate|]. intros _ N. vm_compute in N. intuition discriminate.
    - exact Logic.I.
    - cbn [elsewhere]. split; [vm_compute; discriminate|]. exists wh_op2. split; [discriminate|].
      intros W iss reqs beh J E. in_list J.
      + injection J as <- <- _ _. reflexivity.
      + injection J as <- <- _ _. vm_compute in E. discriminate E. }
  eexists. split; [vm_compute; reflexivity|]. vm_compute. repeat (split; [reflexivity|]). reflexivity.
Qed.
(** with the other hypotheses ([ex_C76_set_up], [ex_C75_hypotheses]) the user is logged in *)
Example ex_C78_result :
  hanswer (run_hcalls ex_handler (wh_before ++ HInit ex_env wh_op [] None :: wh_between)) (HFinalize ex_env wh_op ex_resp false) =
  Ok (AFinal (FOk ho_um (VStr ex_state) (VStr "AT1") (VDict ex_idt) (VStr ""))).
Proof. vm_compute. reflexivity. Qed.

(** afterwards: the client of [ex_C77_hypotheses], in a handler with another provider *)
Definition wh_handler : handler := [(wh_op2, ex_client2); (wh_op, af_client)].
Definition wh_login : list hcall := [HInit ex_env2 wh_op2 [] None; HInit lg_env wh_op [] None; HInit lg_uniq wh_op [] None].
Definition wh_later : list hcall := [HUserInfo lg_uniq ex_state "AT1"; HTokens lg_uniq ex_key2; HClear ex_key2; HClear lg_state].
Definition wh_h1 : handler := snd (h_finalize lg_uniq wh_op ex_resp false (run_hcalls wh_handler wh_login)).
Example ex_C78_kept : fresh_handler wh_handler /\ dget wh_op wh_handler = Some af_client /\ Forall hcall_ok wh_login /\ Forall hcall_ok wh_later /\
  begun_only_at ex_state wh_op (wh_login ++ wh_later) /\ (forall o, In o wh_later -> hspares wh_op ex_state o) /\
  exists cl0 rq info ss cl1 it, dget wh_op (run_hcalls wh_handler wh_login) = Some cl0 /\
    get_item (sdb (cl_ctx cl0)) cAuthzRequest "auth_request" ex_state = Ok rq /\ dget "response_type" rq = Some (VList [VStr "code"]) /\
    h_finalize lg_uniq wh_op ex_resp false (run_hcalls wh_handler wh_login) = (Ok (FOk info (VStr ex_state) (VStr "AT1") (VDict ex_idt) ss), wh_h1) /\
    dget wh_op wh_h1 = Some cl1 /\ stored_tokens (sdb (cl_ctx cl1)) ex_state it /\ dget "expires_in" it = Some (VInt 3600) /\
    dget (verified (verified "id_token")) it = None /\ gives_refresh_token "RT1" it.
Proof.
  assert (U : (rnd32 lg_state /\ rnd32 ex_key2) /\ rnd32 ex_state) by (split; [split|]; split; reflexivity). destruct U as [[R1 R2] R3].
  assert (TU : tame lg_uniq).
  { split; [reflexivity|]. split; [|reflexivity]. intros c m m' E. cbn in E. destruct (uniqb m); [|discriminate]. injection E as <-.
    destruct (dhas "id_token" m); [|reflexivity]. now apply dget_dset_neq. }
  split.
  { split; [repeat constructor; cbn; intuition discriminate|]. intros i cl H. unfold wh_handler in H. cbn [dget] in H.
    destruct (String.eqb_spec wh_op2 i) as [<-|]; [injection H as <-; repeat split; discriminate|].
    destruct (String.eqb_spec wh_op i) as [<-|]; [injection H as <-; repeat split; discriminate|discriminate]. }
  split; [reflexivity|].
  split; [apply Forall_cons; [exact R2|apply Forall_cons; [exact R1|apply Forall_cons; [exact R3|constructor]]]|].
  split; [apply Forall_cons; [exact R3|apply Forall_cons; [exact R2|apply Forall_cons; [exact R2|apply Forall_cons; [exact R1|constructor]]]]|].
  split.
  { intros W iss reqs beh J E. in_list J; injection J as <- <- _ _; [vm_compute in E; discriminate E|reflexivity|reflexivity]. }
  split.
  { intros o [<-|[<-|[<-|[<-|[]]]]]; (split; [intros W EW; cbn in EW; try discriminate EW; injection EW as <-; exact TU|]);
      [right; exact Logic.I|left; reflexivity|left; reflexivity|left; reflexivity]. }
  eexists. eexists. eexists. eexists. eexists. eexists. split; [vm_compute; reflexivity|]. split; [vm_compute; reflexivity|]. split; [vm_compute; reflexivity|].
  split; [vm_compute; reflexivity|]. split; [vm_compute; reflexivity|]. split; [vm_compute; reflexivity|].
  split; [vm_compute; reflexivity|]. split; [vm_compute; reflexivity|].
  split; [vm_compute; reflexivity|]. split; [discriminate|]. split; [vm_compute; reflexivity|].
  intros p [<-|[<-|[<-|[]]]]; vm_compute; split; reflexivity.
Qed.
Example ex_C78_kept_result : let h2 := run_hcalls wh_h1 wh_later in
  client_of_session h2 ex_state = Ok wh_op /\ fst (h_valid_token (af_world "u1") ex_state h2) = Ok (VStr "AT1", 4600%Z) /\
  fst (h_active (af_world "u1") ex_state h2) = Ok true /\
  (exists m, hanswer h2 (HUserInfo (af_world "u1") ex_state "AT1") = Ok (AResp (RMsg m))) /\
  fst (h_valid_token (af_world "u1") ex_state (run_hcall h2 (HRefresh (af_world "u1") ex_state ""))) = Ok (VStr "AT2", 3060%Z).
Proof.
  split; [vm_compute; reflexivity|]. split; [vm_compute; reflexivity|]. split; [vm_compute; reflexivity|]. split; [|vm_compute; reflexivity].
  eexists. vm_compute. reflexivity.
Qed.
