(** Property theorems C77: a completed login stays usable.
    Proofs in P_After.v, specification in S_After.v. *)
From Verif Require Import Base BaseP Json JsonP Msg M_State S_State P_State M_Ctx M_Codec M_Authz M_ClientAuth M_Service M_Token M_Handler
  S_Service S_Token S_Handler S_Flow S_Trace S_Sched S_Retry P_Ctx P_Authz P_Codec P_ClientAuth P_Service P_Wire P_Token
  P_Token2 P_Handler P_Flow P_Trace P_Flow2 P_Handler2 P_Handler3 P_Handler4 P_Sim P_SimK P_Sched P_Retry S_Traffic S_Honest P_Honest P_Honest2 P_Honest3 P_Honest4
  S_Login P_Login S_After P_After Ex T_Flow T_Login T_Verify.

(** The situation of the theorems: a client makes any calls ([os0]), then completes the
    code-flow login [k] with an access token [tok] and an ID Token [idt], and then makes any
    calls ([os1]) that do not get, refresh or clear the tokens of this login; they may ask for
    its user info or log out, and do anything about other logins, with whatever peers. *)

(** C77: get_valid_access_token gives the token of the login until it expires, and then says
    that there is none.  [it] is what the login stored. *)
Theorem C77_token_of_the_login : forall cl os0 os1 c0 W iss k code resp collect info tok idt ss c1 rq it now,
  plain_client cl -> sdb c0 = [] -> Forall call_ok os0 -> Forall call_ok os1 ->
  (forall name c m v, e_vrf W name c m = Ok v -> uniq v) -> code_only k code W resp ->
  get_item (sdb (run_calls cl os0 c0)) cAuthzRequest "auth_request" k = Ok rq -> dget "response_type" rq = Some (VList [VStr "code"]) ->
  finalize W cl iss resp collect (run_calls cl os0 c0) = (Ok (FOk info (VStr k) (VStr tok) (VDict idt) ss), c1) ->
  (forall o, In o os1 -> spares k o) ->
  tok <> "" -> (0 <= now)%Z -> stored_tokens (sdb c1) k it -> (dget "expires_in" it = None -> dget "__expires_at" it = None) ->
  valid_until it (e_now W) now tok (get_valid_access_token now (sdb (run_calls cl os1 c1)) k).
Proof.
  intros cl os0 os1 c0 W iss k code resp collect info tok idt ss c1 rq it now PC E0 O0 O1 HU CO RQ RT H SP Ne P I X.
  exact (token_still cl os0 os1 c0 W iss k code resp collect info tok idt ss c1 rq PC E0 O0 O1 HU CO RQ RT H SP now it Ne P I X).
Qed.
Print Assumptions C77_token_of_the_login.

(** C77: the user is logged in until the ID Token expires *)
Theorem C77_user_stays_logged_in : forall cl os0 os1 c0 W iss k code resp collect info tok idt ss c1 rq it now z,
  plain_client cl -> sdb c0 = [] -> Forall call_ok os0 -> Forall call_ok os1 ->
  (forall name c m v, e_vrf W name c m = Ok v -> uniq v) -> code_only k code W resp ->
  get_item (sdb (run_calls cl os0 c0)) cAuthzRequest "auth_request" k = Ok rq -> dget "response_type" rq = Some (VList [VStr "code"]) ->
  finalize W cl iss resp collect (run_calls cl os0 c0) = (Ok (FOk info (VStr k) (VStr tok) (VDict idt) ss), c1) ->
  (forall o, In o os1 -> spares k o) ->
  stored_tokens (sdb c1) k it -> dget (verified (verified "id_token")) it = None -> dget "exp" idt = Some (VInt z) ->
  has_active_authentication now (sdb (run_calls cl os1 c1)) k = Ok (now <? z)%Z.
Proof.
  intros cl os0 os1 c0 W iss k code resp collect info tok idt ss c1 rq it now z PC E0 O0 O1 HU CO RQ RT H SP I N X.
  exact (active_still cl os0 os1 c0 W iss k code resp collect info tok idt ss c1 rq PC E0 O0 O1 HU CO RQ RT H SP now z it I N X).
Qed.
Print Assumptions C77_user_stays_logged_in.

(** C77: the user info can be asked for again, at an honest provider *)
Theorem C77_user_info_again : forall cl os0 os1 c0 W W1 iss k code resp collect info tok idt ss c1 rq sub um,
  plain_client cl -> sdb c0 = [] -> Forall call_ok os0 -> Forall call_ok os1 ->
  (forall name c m v, e_vrf W name c m = Ok v -> uniq v) -> code_only k code W resp ->
  get_item (sdb (run_calls cl os0 c0)) cAuthzRequest "auth_request" k = Ok rq -> dget "response_type" rq = Some (VList [VStr "code"]) ->
  finalize W cl iss resp collect (run_calls cl os0 c0) = (Ok (FOk info (VStr k) (VStr tok) (VDict idt) ss), c1) ->
  (forall o, In o os1 -> spares k o) ->
  dget "sub" idt = Some (VStr sub) -> tok <> "" ->
  has_service cl "userinfo" = true -> dget "pre_construct" (conf_of cl "userinfo") = None ->
  userinfo_endpoint_honest W1 c0 tok um -> about_user sub um -> (forall m, msg_new cMessage um = Ok m -> verifies W1 "userinfo" m m) ->
  exists m c', get_user_info W1 cl k tok (run_calls cl os1 c1) = (Ok (RMsg m), c') /\ shows um m.
Proof.
  intros cl os0 os1 c0 W W1 iss k code resp collect info tok idt ss c1 rq sub um PC E0 O0 O1 HU CO RQ RT H SP HS Ne US PCU UE UA V.
  destruct (user_info_still cl os0 os1 c0 W iss k code resp collect info tok idt ss c1 rq PC E0 O0 O1 HU CO RQ RT H SP W1 sub um HS Ne US PCU UE UA V) as (m & c' & G & S).
  exists m, c'. split; [exact G|]. intros p v Hp N1 N2. rewrite (msg_new_get _ _ _ (proj1 UA) S), Hp.
  assert (SK : skipped v = false) by (destruct v as [| | |[]|[|[| | |[]| |] []]|]; try reflexivity; congruence). now rewrite SK.
Qed.
Print Assumptions C77_user_info_again.

(** C77: the token can be refreshed, with whatever scope, at an honest provider, which answers
    by the token [tok2] and perhaps a new ID Token ([o]): the answer is given, and the new
    token is the valid one from then on *)
Theorem C77_refresh_at_an_honest_provider : forall cl os0 os1 c0 W W1 iss k code resp collect info tok idt ss c1 rq scope rt tok2 tm o,
  plain_client cl -> sdb c0 = [] -> Forall call_ok os0 -> Forall call_ok os1 ->
  (forall name c m v, e_vrf W name c m = Ok v -> uniq v) -> code_only k code W resp ->
  get_item (sdb (run_calls cl os0 c0)) cAuthzRequest "auth_request" k = Ok rq -> dget "response_type" rq = Some (VList [VStr "code"]) ->
  finalize W cl iss resp collect (run_calls cl os0 c0) = (Ok (FOk info (VStr k) (VStr tok) (VDict idt) ss), c1) ->
  (forall o, In o os1 -> spares k o) ->
  can_refresh cl c0 -> registered_secret c0 -> (forall it, stored_tokens (sdb c1) k it -> gives_refresh_token rt it) ->
  refresh_endpoint_honest W1 c0 rt tm -> token_answer tok2 tm -> no_private tm ->
  (forall m, msg_new cTokenResponse tm = Ok m -> verifies W1 "refresh_token" m (with_id_token o m)) ->
  exists m c', refresh_access_token W1 cl k scope (run_calls cl os1 c1) = (Ok (RMsg m), c') /\ dget "access_token" m = Some (VStr tok2) /\
    (forall now, (0 <= now)%Z -> valid_until tm (e_now W1) now tok2 (get_valid_access_token now (sdb c') k)) /\
    (forall now idt2 z, o = Some idt2 -> dget "exp" idt2 = Some (VInt z) -> has_active_authentication now (sdb c') k = Ok (now <? z)%Z).
Proof.
  intros cl os0 os1 c0 W W1 iss k code resp collect info tok idt ss c1 rq scope rt tok2 tm o PC E0 O0 O1 HU CO RQ RT H SP CR RS GR EH TA NP V.
  destruct (refreshed cl os0 os1 c0 W iss k code resp collect info tok idt ss c1 rq PC E0 O0 O1 HU CO RQ RT H SP W1 scope rt tok2 tm o CR RS GR EH TA NP V)
    as (m & c' & A & B & C & D). exists m, c'. split; [exact A|]. split; [exact B|]. split; [exact C|].
  intros now idt2 z -> Hz. exact (D now z Hz).
Qed.
Print Assumptions C77_refresh_at_an_honest_provider.

(** C77, refuted part: "the user stays logged in after a refresh" does not hold.  A provider
    need not send a new ID Token when it refreshes; the answer is stored over the token
    response, so the ID Token of the login is lost: from then on the user is said not to be
    logged in, at any time. *)
Theorem C77_logged_in_after_refresh_refuted : forall cl os0 os1 c0 W W1 iss k code resp collect info tok idt ss c1 rq scope rt tok2 tm,
  plain_client cl -> sdb c0 = [] -> Forall call_ok os0 -> Forall call_ok os1 ->
  (forall name c m v, e_vrf W name c m = Ok v -> uniq v) -> code_only k code W resp ->
  get_item (sdb (run_calls cl os0 c0)) cAuthzRequest "auth_request" k = Ok rq -> dget "response_type" rq = Some (VList [VStr "code"]) ->
  finalize W cl iss resp collect (run_calls cl os0 c0) = (Ok (FOk info (VStr k) (VStr tok) (VDict idt) ss), c1) ->
  (forall o, In o os1 -> spares k o) ->
  can_refresh cl c0 -> registered_secret c0 -> (forall it, stored_tokens (sdb c1) k it -> gives_refresh_token rt it) ->
  refresh_endpoint_honest W1 c0 rt tm -> token_answer tok2 tm -> no_private tm ->
  (forall m, msg_new cTokenResponse tm = Ok m -> verifies W1 "refresh_token" m m) ->
  exists m c', refresh_access_token W1 cl k scope (run_calls cl os1 c1) = (Ok (RMsg m), c') /\
    forall now, has_active_authentication now (sdb c') k = Ok false.
Proof.
  intros cl os0 os1 c0 W W1 iss k code resp collect info tok idt ss c1 rq scope rt tok2 tm PC E0 O0 O1 HU CO RQ RT H SP CR RS GR EH TA NP V.
  destruct (refreshed cl os0 os1 c0 W iss k code resp collect info tok idt ss c1 rq PC E0 O0 O1 HU CO RQ RT H SP W1 scope rt tok2 tm None CR RS GR EH TA NP V)
    as (m & c' & A & B & C & D). exists m, c'. split; [exact A|exact D].
Qed.
Print Assumptions C77_logged_in_after_refresh_refuted.

(** ** the hypotheses are met *)
Definition af_ctx : ctx :=
  mkctx "https://op.example" "client1" "s3cret" "https://rp.example" "" (VDict []) ["https://rp.example/cb"] []
    [("response_types", strs ["code"]); ("scope", strs ["openid"; "email"]); ("token_endpoint_auth_method", VStr "client_secret_basic")]
    ex_provider [] [] [] [] []
    [("pkce", VDict [("code_challenge_length", VInt 64); ("code_challenge_method", VStr "S256")])] [].
Definition af_client : client := mkclient af_ctx ["authorization"; "accesstoken"; "refresh_token"; "userinfo"; "end_session"] [] true.
(** another login before, and one that is given up between, in which the user info of the
    login is asked for, too *)
Definition af_before : list call := [CInit lg_env [] None; CInit lg_uniq [] None].
Definition af_between : list call := [CUserInfo lg_uniq ex_state "AT1"; CTokens lg_uniq lg_state; CClear lg_state].
Definition af_c1 : ctx := snd (finalize lg_uniq af_client "https://op.example" ex_resp false (run_calls af_client af_before af_ctx)).
Definition af_um : dict val := [("sub", VStr "u1"); ("email", VStr "u1@example.org")].
(** the provider, later: it refreshes, without a new ID Token *)
Definition af_answer : dict val := [("access_token", VStr "AT2"); ("token_type", VStr "Bearer"); ("expires_in", VInt 60)].
Definition af_world (sub : string) : env :=
  mkenv 3000 ex_nonce ex_state "x2" "n2" "LsLsLsLsLsLsLsLsLsLsLsLsLsLsLsLs"
    (fun u _ _ _ => Ok (json_answer (if u =?s "https://op.example/token" then af_answer else [("sub", VStr sub); ("email", VStr "u1@example.org")])))
    (fun _ _ => Err OtherError) ex_vrf
    (fun _ => Ok None) (fun _ _ _ _ => Ok "reqobj") ex_authn (fun n => 7 * n) (fun m v => (m ++ "digest")%string).
Example ex_C77_login : exists info ss rq it,
  finalize lg_uniq af_client "https://op.example" ex_resp false (run_calls af_client af_before af_ctx) =
    (Ok (FOk info (VStr ex_state) (VStr "AT1") (VDict ex_idt) ss), af_c1) /\
  get_item (sdb (run_calls af_client af_before af_ctx)) cAuthzRequest "auth_request" ex_state = Ok rq /\ dget "response_type" rq = Some (VList [VStr "code"]) /\
  stored_tokens (sdb af_c1) ex_state it /\ dget "expires_in" it = Some (VInt 3600) /\ dget (verified (verified "id_token")) it = None /\
  gives_refresh_token "RT1" it.
Proof.
  eexists. eexists. eexists. eexists. split; [vm_compute; reflexivity|]. split; [vm_compute; reflexivity|]. split; [vm_compute; reflexivity|].
  split; [vm_compute; reflexivity|]. split; [vm_compute; reflexivity|]. split; [vm_compute; reflexivity|].
  split; [vm_compute; reflexivity|]. split; [discriminate|]. split; [vm_compute; reflexivity|].
  intros p [<-|[<-|[<-|[]]]]; vm_compute; split; reflexivity.
Qed.
Example ex_C77_hypotheses :
  plain_client af_client /\ sdb af_ctx = [] /\ Forall call_ok af_before /\ Forall call_ok af_between /\
  (forall name c m v, e_vrf lg_uniq name c m = Ok v -> uniq v) /\ code_only ex_state "c0de" lg_uniq ex_resp /\
  (forall o, In o af_between -> spares ex_state o) /\ dget "exp" ex_idt = Some (VInt 5000) /\
  userinfo_endpoint_honest (af_world "u1") af_ctx "AT1" af_um /\ about_user "u1" af_um /\ (forall m, msg_new cMessage af_um = Ok m -> verifies (af_world "u1") "userinfo" m m) /\
  can_refresh af_client af_ctx /\ registered_secret af_ctx /\ refresh_endpoint_honest (af_world "u1") af_ctx "RT1" af_answer /\ token_answer "AT2" af_answer /\ no_private af_answer /\
  (forall m, msg_new cTokenResponse af_answer = Ok m -> verifies (af_world "u1") "refresh_token" m m).
Proof.
  assert (U1 : rnd32 ex_state /\ rnd32 lg_state) by (split; split; reflexivity). destruct U1 as [R1 R2].
  split; [split; [split; reflexivity|reflexivity]|]. split; [reflexivity|].
  split; [repeat (apply Forall_cons; [assumption|]); constructor|].
  split; [repeat (apply Forall_cons; [assumption|]); constructor|].
  split. { cbn. intros n c m v. destruct (uniqb m) eqn:U; [|discriminate]. apply uniqb_NoDup in U. intros [= <-].
      unfold uniq. destruct (dhas _ m); [now apply NoDup_dset|assumption]. }
  split. { split; [split; [unfold uniq; cbn; repeat (constructor; [cbn; intuition discriminate|]); constructor|repeat (split; [reflexivity||discriminate|]); reflexivity]|].
    split; [reflexivity|]. split; [reflexivity|]. intros ar Ea c. injection Ea as <-. reflexivity. }
  assert (TU : tame lg_uniq).
  { split; [reflexivity|]. split; [|reflexivity]. intros c m m' E. cbn in E. destruct (uniqb m); [|discriminate]. injection E as <-.
    destruct (dhas "id_token" m); [|reflexivity]. now apply dget_dset_neq. }
  split. { intros o [<-|[<-|[<-|[]]]]; (split; [first [exact TU|exact I]|]); [right; exact I|left; reflexivity|left; reflexivity]. }
  split; [reflexivity|].
  split. { exists "https://op.example/userinfo". split; [reflexivity|]. intros u b h A _. cbn [e_http af_world].
    destruct (String.eqb_spec u "https://op.example/token") as [->|]; [vm_compute in A; discriminate|reflexivity]. }
  split; [split; [unfold uniq; cbn; repeat (constructor; [cbn; intuition discriminate|]); constructor|repeat (split; [reflexivity||discriminate|]); reflexivity]|].
  split; [intros m Em c; injection Em as <-; reflexivity|].
  split; [repeat (split; [reflexivity|]); reflexivity|].
  split; [split; [discriminate|split; [discriminate|left; reflexivity]]|].
  split. { exists "https://op.example/token". split; [reflexivity|]. intros b h _. reflexivity. }
  split; [split; [unfold uniq; cbn; repeat (constructor; [cbn; intuition discriminate|]); constructor|split; [reflexivity|split; [discriminate|split; [reflexivity|cbn; eauto]]]]|].
  split; [repeat (split; [reflexivity|]); reflexivity|].
  intros m Em c. injection Em as <-. reflexivity.
Qed.
(** and what comes out: the token until 4600, the user until 5000; after a refresh the new
    token, but no user *)
Definition af_c2 : ctx := run_calls af_client af_between af_c1.
Example ex_C77_result :
  get_valid_access_token 4599 (sdb af_c2) ex_state = Ok (VStr "AT1", 4600%Z) /\ get_valid_access_token 4600 (sdb af_c2) ex_state = Err OidcServiceError /\
  has_active_authentication 4999 (sdb af_c2) ex_state = Ok true /\ has_active_authentication 5000 (sdb af_c2) ex_state = Ok false /\
  let c3 := snd (refresh_access_token (af_world "u1") af_client ex_state "" af_c2) in
  get_valid_access_token 3059 (sdb c3) ex_state = Ok (VStr "AT2", 3060%Z) /\ has_active_authentication 3059 (sdb c3) ex_state = Ok false.
Proof. cbv zeta. do 4 (split; [vm_compute; reflexivity|]). split; vm_compute; reflexivity. Qed.
(** with the ID Token, the check of the user is lost: claims about another user are refused
    after the login, and accepted after the refresh *)
Example C77_other_user_after_refresh_refuted :
  let c3 := snd (refresh_access_token (af_world "u1") af_client ex_state "" af_c2) in
  (exists e, fst (get_user_info (af_world "u2") af_client ex_state "AT1" af_c2) = Err e) /\
  exists m, fst (get_user_info (af_world "u2") af_client ex_state "AT2" c3) = Ok (RMsg m) /\ dget "sub" m = Some (VStr "u2").
Proof.
  cbv zeta. split.
  - eexists. vm_compute. reflexivity.
  - eexists. split; vm_compute; reflexivity.
Qed.
