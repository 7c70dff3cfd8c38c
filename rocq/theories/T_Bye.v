(** Property theorems C79: after a completed login the user can log out.
    Proofs in P_Bye.v, specification in S_Bye.v, S_After.v and S_Whole.v. *)
From Verif Require Import Base BaseP Json JsonP Msg M_State S_State P_State M_Ctx M_Codec M_Authz M_ClientAuth M_Service M_Token M_Handler
  S_Service S_Token S_Handler S_Flow S_Trace S_Sched S_Retry S_Route S_Multi P_Ctx P_Authz P_Codec P_ClientAuth P_Service P_Wire P_Token
  P_Token2 P_Handler P_Flow P_Trace P_Flow2 P_Handler2 P_Handler3 P_Handler4 P_Route P_Sim P_SimK P_Sched P_Retry P_Multi S_Traffic S_Honest P_Honest P_Honest2 P_Honest3 P_Honest4
  S_After P_After S_Whole P_Whole S_Bye P_Bye Ex T_Handler T_Flow T_Login T_Verify T_After T_Whole.

(** C79: whatever a client did before a code-flow login and after it (as in C77), the login can
    be ended at the provider: logout does not fail but gives a redirect to the provider's
    endpoint with the ID Token of the login and a new logout state; and this state leads back
    to the login, whatever is done then, other logouts included, until one draws the same logout state or a session is removed. *)
Theorem C79_logout_after_a_login : forall cl os0 os1 os2 c0 W W1 iss k code resp collect info tok idt ss c1 rq it raw ep uri,
  plain_client cl -> sdb c0 = [] -> Forall call_ok os0 -> Forall call_ok os1 -> Forall call_ok os2 ->
  (forall name c m v, e_vrf W name c m = Ok v -> uniq v) -> code_only k code W resp ->
  get_item (sdb (run_calls cl os0 c0)) cAuthzRequest "auth_request" k = Ok rq -> dget "response_type" rq = Some (VList [VStr "code"]) ->
  finalize W cl iss resp collect (run_calls cl os0 c0) = (Ok (FOk info (VStr k) (VStr tok) (VDict idt) ss), c1) ->
  (forall o, In o os1 -> spares k o) -> (forall o, In o os2 -> spares_logout (e_lstate W1) o) ->
  can_log_out cl c0 ep -> stored_tokens (sdb c1) k it -> dget "id_token" it = Some (VStr raw) -> raw <> "" -> e_lstate W1 <> "" ->
  exists inf c2, logout W1 cl k uri (run_calls cl os1 c1) = (Ok inf, c2) /\ logout_sent ep raw (e_lstate W1) inf /\
    (uri <> "" -> query_has (i_url inf) "post_logout_redirect_uri" uri) /\
    get_state_by_logout_state (sdb (run_calls cl os2 c2)) (e_lstate W1) = Ok k.
Proof.
  intros cl os0 os1 os2 c0 W W1 iss k code resp collect info tok idt ss c1 rq it raw ep uri PC E0 O0 O1 O2 HU CO RQ RT H SP NL CL ST IT Ne LS.
  destruct (after_login cl os0 os1 c0 W iss k code resp collect info tok idt ss c1 rq PC E0 O0 O1 HU CO RQ RT H SP)
    as (Hk & S & CE & NR & _ & KEEP & v & rw & m & _ & _ & _ & TI & _ & _ & NDm).
  set (c := run_calls cl os1 c1) in *.
  assert (CL' : can_log_out cl c ep) by (rewrite CE; exact CL).
  destruct (logout_total k Hk W1 cl uri c (VStr iss) ep S (proj2 PC) CL') as (inf & c2 & L).
  assert (EP : dget "end_session_endpoint" (provider_info c) = Some (VStr ep)) by apply CL'.
  destruct (logout_request W1 cl k uri c inf c2 ep Hk (proj2 PC) EP L) as (A1 & A2 & A3 & A4 & A5 & A6 & A7).
  destruct (A7 (proj1 (proj2 (proj2 CL)))) as (B1 & B2 & B3 & _).
  exists inf, c2. split; [exact L|].
  assert (RAW : session_raw_id_token (sdb c) k = Some (VStr raw)).
  { unfold session_raw_id_token, session_items. cbn [newest_with].
    destruct (get_item (sdb c) cMessage "refresh_token_response" k) as [x|] eqn:ER; [destruct (NR _ _ ER)|].
    destruct (msg_new_total cMessage (msg_to_dict cTokenResponse m) eq_refl) as [im EM].
    unfold stored_tokens in ST. rewrite <- (KEEP cTokenResponse "token_response") in ST by discriminate. rewrite TI in ST.
    assert (ND : NoDup (dkeys (msg_to_dict cTokenResponse m))) by now rewrite ser_keys.
    rewrite TI, EM. rewrite (msg_new_get cTokenResponse _ it ND ST) in IT. rewrite (msg_new_get cMessage _ im ND EM).
    change (c_default cTokenResponse) with (c_default cMessage) in IT. 
    replace (shown cMessage "id_token") with (shown cTokenResponse "id_token") by reflexivity. rewrite IT. reflexivity. }
  split. { split; [exact A1|]. split; [exact A2|]. split; [exact A3|]. split; [apply B1; assumption|apply B2; exact LS]. }
  split; [exact B3|].
  assert (E2 : c2 = run_calls cl [CLogout W1 k uri] c) by (cbn [run_calls fold_left run_call]; now rewrite L).
  assert (C2 : closed rnd32 (sdb c2)).
  { destruct (calls_write cl [CLogout W1 k uri] PC (Forall_cons _ (Hk : call_ok (CLogout W1 k uri)) (Forall_nil _)) c (proj1 S)) as (_ & ops & FO & EO).
    rewrite E2, EO. eapply closed_run; [exact rnd32_family|exact (proj1 S)|]. eapply Forall_impl; [|exact FO]. cbn. tauto. }
  rewrite (logout_still cl os2 c PC O2 c2 (e_lstate W1) C2 A6 NL). exact A4.
Qed.
Print Assumptions C79_logout_after_a_login.

(** C79: at a handler with many providers the session key alone is enough: logout and close
    build this request at the provider of the login, whatever was done for other providers and
    other logins (as in C78). *)
Theorem C79_logout_by_the_key : forall h i cl os0 os1 W W1 k code resp collect info tok idt ss h1 cl0 cl1 rq it raw ep uri iss,
  fresh_handler h -> dget i h = Some cl -> Forall hcall_ok os0 -> Forall hcall_ok os1 -> begun_only_at k i (os0 ++ os1) ->
  (forall name c m v, e_vrf W name c m = Ok v -> uniq v) -> code_only k code W resp ->
  dget i (run_hcalls h os0) = Some cl0 ->
  get_item (sdb (cl_ctx cl0)) cAuthzRequest "auth_request" k = Ok rq -> dget "response_type" rq = Some (VList [VStr "code"]) ->
  h_finalize W i resp collect (run_hcalls h os0) = (Ok (FOk info (VStr k) (VStr tok) (VDict idt) ss), h1) ->
  dget i h1 = Some cl1 -> (forall o, In o os1 -> hspares i k o) ->
  can_log_out cl (cl_ctx cl) ep -> stored_tokens (sdb (cl_ctx cl1)) k it -> dget "id_token" it = Some (VStr raw) -> raw <> "" -> e_lstate W1 <> "" ->
  iss = "" \/ iss = i ->
  let h2 := run_hcalls h1 os1 in
  exists inf h3, h_logout W1 k uri h2 = (Ok inf, h3) /\ h_close W1 k iss uri h2 = (Ok inf, h3) /\ logout_sent ep raw (e_lstate W1) inf /\
    (forall j, j <> i -> dget j h3 = dget j h2) /\
    exists cl3, dget i h3 = Some cl3 /\ get_state_by_logout_state (sdb (cl_ctx cl3)) (e_lstate W1) = Ok k.
Proof.
  intros h i cl os0 os1 W W1 k code resp collect info tok idt ss h1 cl0 cl1 rq it raw ep uri iss F D OK0 OK1 B HU CO D0 RQ RT H D1 SP CLO ST IT Ne LS IS h2.
  destruct (at_handler h i cl os0 os1 W k code resp collect info tok idt ss h1 cl0 cl1 rq F D OK0 OK1 B HU CO D0 RQ RT H D1 SP)
    as (cs0 & cs1 & PC & E0 & OC0 & OC1 & RQ' & EF & SP' & E2 & RO & K & LT).
  destruct (C79_logout_after_a_login cl cs0 cs1 [] (cl_ctx cl) W W1 i k code resp collect info tok idt ss (cl_ctx cl1) rq it raw ep uri
    PC E0 OC0 OC1 (Forall_nil _) HU CO RQ' RT EF SP' (fun o (X : In o []) => match X with end) CLO ST IT Ne LS) as (inf & c2 & L & LG & _ & BK).
  fold h2 in RO, E2. exists inf, (dset i (set_ctx c2 (set_ctx (run_calls cl cs1 (cl_ctx cl1)) cl)) h2).
  assert (OC : on_client i (fun cl2 => logout W1 cl2 k uri) h2 = (Ok inf, dset i (set_ctx c2 (set_ctx (run_calls cl cs1 (cl_ctx cl1)) cl)) h2)).
  { unfold on_client. rewrite E2. cbn [cl_ctx set_ctx].
    change (logout W1 (set_ctx (run_calls cl cs1 (cl_ctx cl1)) cl) k uri) with (logout W1 cl k uri). rewrite L. reflexivity. }
  assert (HL : h_logout W1 k uri h2 = (Ok inf, dset i (set_ctx c2 (set_ctx (run_calls cl cs1 (cl_ctx cl1)) cl)) h2)).
  { unfold h_logout, on_session. rewrite RO. exact OC. }
  split; [exact HL|]. split.
  { unfold h_close. destruct IS as [IS|IS]; rewrite IS; [exact HL|]. destruct (i =?s ""); [exact HL|exact OC]. }
  split; [exact LG|]. split; [intros j Nj; now rewrite dget_dset_neq by congruence|].
  eexists. split; [apply dget_dset_eq|]. cbn [cl_ctx set_ctx]. exact BK.
Qed.
Print Assumptions C79_logout_by_the_key.

(** ** the hypotheses are met by the client and handler of C77 and C78 *)
Definition bye_world : env := mkenv 3000 ex_nonce ex_state "x2" "n2" "OoOoOoOoOoOoOoOoOoOoOoOoOoOoOoOo" ex_http (fun _ _ => Err OtherError) ex_vrf
  (fun _ => Ok None) (fun _ _ _ _ => Ok "reqobj") ex_authn (fun n => 7 * n) (fun m v => (m ++ "digest")%string).
Example ex_C79_hypotheses : can_log_out af_client af_ctx "https://op.example/logout" /\ e_lstate (af_world "u1") <> "" /\
  (forall o, In o [CInit lg_env [] None; CUserInfo (af_world "u1") ex_state "AT1"; CLogout bye_world ex_state ""; CLogout bye_world lg_state ""] -> spares_logout (e_lstate (af_world "u1")) o) /\
  exists it, stored_tokens (sdb af_c1) ex_state it /\ dget "id_token" it = Some (VStr "eyJ.x.y").
Proof.
  split. { split; [reflexivity|]. split; [reflexivity|]. split; [vm_compute; reflexivity|]. split; intros v Hv; discriminate Hv. }
  split; [discriminate|]. split; [intros o [<-|[<-|[<-|[<-|[]]]]]; cbn; try exact Logic.I; vm_compute; discriminate|].
  eexists. split; vm_compute; reflexivity.
Qed.

(** the logout of that login, computed: a redirect to the end_session endpoint *)
Example ex_C79_result : exists inf, fst (h_logout (af_world "u1") ex_state "" (run_hcalls wh_h1 wh_later)) = Ok inf /\
  logout_sent "https://op.example/logout" "eyJ.x.y" (e_lstate (af_world "u1")) inf.
Proof. eexists. split; [vm_compute; reflexivity|]. repeat (split || eexists || (vm_compute; reflexivity)). Qed.
