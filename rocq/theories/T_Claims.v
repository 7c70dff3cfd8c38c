(** Property theorem C53: claims from other sources.  Proofs in P_Claims.v, specification in
    S_Claims.v. *)
From Verif Require Import Base BaseP Json Msg M_State S_State M_Ctx M_Codec M_Authz M_ClientAuth M_Service M_Token M_Handler M_Claims
  S_Token S_Handler S_Flow S_Trace S_Claims P_State P_Handler P_Trace P_Claims Ex.

(** C53: after any history, the user info that get_user_info returns and stores has for
    every claim that is left to an aggregated source the value in that source's signed
    claims, and every other claim as the verified answer has it. *)
Theorem C53_aggregated_claims : forall W cl os c0 st tok m c',
  plain_client cl -> Forall call_ok os -> sdb c0 = [] ->
  let c := run_calls cl os c0 in
  get_user_info W cl st tok c = (Ok (RMsg m), c') ->
  exists m0 ui, is_error_message m0 = false /\ e_vrf W "userinfo" c m0 = Ok ui /\ (proper_claims ui ->
    (forall n s d, left_to ui n s -> aggregates (e_agg W) ui s d -> exists v, dget n d = Some v /\ dget n m = Some v) /\
    (forall n, (forall s d, left_to ui n s -> ~ aggregates (e_agg W) ui s d) -> dget n m = dget n ui) /\
    (forall cc, get_item (sdb c') cc "user_info" st = msg_new cc (msg_to_dict cMessage m))).
Proof. intros W cl os c0 st tok m c' PC OK E c. apply user_info_claims. now apply P_Handler4.closed_reach'. Qed.
Print Assumptions C53_aggregated_claims.

(** C53: fetch_distributed_claims only changes claims that are left to a source, and only to
    what that source answered, with status 200, to a request for it; also when it fails
    midway.  When it succeeds, every claim left to a source that answers has that value. *)
Theorem C53_distributed_claims : forall http has_userinfo c cb ui log o ui',
  proper_claims ui -> fetch_distributed_claims http has_userinfo c cb ui = (log, (o, ui')) -> forall n,
  (dget n ui' = dget n ui \/ exists s d v, left_to ui n s /\ answers_with http cb ui s d /\ dget n d = Some v /\ dget n ui' = Some v) /\
  (o = Done -> forall s d, left_to ui n s -> answers_with http cb ui s d -> exists v, dget n d = Some v /\ dget n ui' = Some v).
Proof. exact distributed_claims. Qed.
Print Assumptions C53_distributed_claims.

(** C53: the sources with an endpoint are asked in order, each once, with GET, at its own
    endpoint and with its own access token, else the application's token for that endpoint,
    else none: no source sees another's token.  After an answer other than 200 no
    further source is asked and FetchException is raised, and only then. *)
Theorem C53_requests_to_sources : forall http has_userinfo c cb ui log o ui',
  fetch_distributed_claims http has_userinfo c cb ui = (log, (o, ui')) ->
  Forall2 (asks cb) log (firstn (length log) (askable (sources_of ui))) /\
  (o = Done -> length log = length (askable (sources_of ui))) /\
  (forall r resp, In r log -> http (fst r) "GET" None (snd r) = Ok resp -> h_status resp <> 200%Z -> o = Fetch_failed (h_status resp)) /\
  (forall z, o = Fetch_failed z -> exists l r resp, log = l ++ [r] /\ http (fst r) "GET" None (snd r) = Ok resp /\ h_status resp = z /\ z <> 200%Z) /\
  (forall r e, In r log -> http (fst r) "GET" None (snd r) = Err e -> o = Raised e).
Proof. exact distributed_requests. Qed.
Print Assumptions C53_requests_to_sources.

(** ** examples *)
Definition cx_ui : msg :=
  [("sub", VStr "u1"); ("name", VStr "Eve"); ("address", VStr "old");
   ("_claim_names", VDict [("address", VStr "src1"); ("score", VStr "src2"); ("phone", VStr "src3"); ("age", VStr "src2")]);
   ("_claim_sources", VDict [("src1", VDict [("JWT", VStr "a.b.c")]);
                             ("src2", VDict [("endpoint", VStr "https://bank.example/claims"); ("access_token", VStr "T2")]);
                             ("src3", VDict [("endpoint", VStr "https://phone.example/claims")])])].
Definition cx_agg : agg_oracle := fun j => Ok (if j =?s "a.b.c" then Some [("address", VStr "Main St"); ("sub", VStr "x")] else None).
Definition cx_http (phone_status : Z) : http_client := fun u m b h =>
  if u =?s "https://bank.example/claims" then
    match dget "Authorization" h with
    | Some a => if a =?s "Bearer T2" then Ok (mkresp 200 None (json_dumps (VDict [("score", VInt 7); ("age", VInt 30); ("name", VStr "Mallory")]))) else Err OtherError
    | None => Err OtherError
    end
  else Ok (mkresp phone_status None (json_dumps (VDict [("phone", VStr "555")]))).
Definition cx_cb : option (string -> res val) := Some (fun ep => Ok (VStr "T3")).
Example C53_proper_ex : proper_claims cx_ui.
Proof.
  split; cbn.
  - intros names [= <-]. split; [unfold uniq; cbn; repeat constructor; cbn; intuition discriminate|cbn; intuition discriminate].
  - intros s [= <-]. unfold uniq. cbn. repeat constructor; cbn; intuition discriminate.
Qed.
Example C53_sources_ex : left_to cx_ui "address" "src1" /\ left_to cx_ui "score" "src2" /\
  aggregates cx_agg cx_ui "src1" [("address", VStr "Main St"); ("sub", VStr "x")] /\
  answers_with (cx_http 200) cx_cb cx_ui "src2" [("score", VInt 7); ("age", VInt 30); ("name", VStr "Mallory")].
Proof.
  split; [eexists; split; reflexivity|]. split; [eexists; split; reflexivity|].
  split. { exists [("JWT", VStr "a.b.c")], "a.b.c". split; [eexists; split; reflexivity|split; reflexivity]. }
  exists [("endpoint", VStr "https://bank.example/claims"); ("access_token", VStr "T2")], "https://bank.example/claims", [("Authorization", "Bearer T2")],
    (mkresp 200 None (json_dumps (VDict [("score", VInt 7); ("age", VInt 30); ("name", VStr "Mallory")]))).
  split; [eexists; split; reflexivity|]. split; [reflexivity|]. split; [exists "T2"; split; reflexivity|]. split; [reflexivity|]. split; [reflexivity|]. vm_compute. reflexivity.
Qed.
(** all sources answer: their claims are added, other members of the answers are not *)
Example C53_fetch_ex :
  let '(log, (o, ui)) := fetch_distributed_claims (cx_http 200) true ex_ctx cx_cb cx_ui in
  o = Done /\ log = [("https://bank.example/claims", [("Authorization", "Bearer T2")]); ("https://phone.example/claims", [("Authorization", "Bearer T3")])] /\
  dget "score" ui = Some (VInt 7) /\ dget "phone" ui = Some (VStr "555") /\ dget "name" ui = Some (VStr "Eve").
Proof. vm_compute. repeat split. Qed.
Example C53_fetch_fails_ex :
  let '(log, (o, ui)) := fetch_distributed_claims (cx_http 302) true ex_ctx cx_cb cx_ui in
  o = Fetch_failed 302 /\ dget "score" ui = Some (VInt 7) /\ dget "phone" ui = None.
Proof. vm_compute. repeat split. Qed.
(** the user info endpoint of the example world answers with these sources *)
Definition cx_env : env :=
  mkenv 1000 ex_nonce ex_state "x2" "n2" "LsLsLsLsLsLsLsLsLsLsLsLsLsLsLsLs"
    (fun u m b h => if u =?s "https://op.example/userinfo" then Ok (mkresp 200 (Some "application/json") (json_dumps (VDict cx_ui))) else ex_http u m b h)
    (fun _ _ => Err OtherError) ex_vrf cx_agg (fun _ _ _ _ => Ok "reqobj") ex_authn (fun n => 7 * n) (fun m v => (m ++ "digest")%string).
Definition cx_calls : list call := [CInit ex_env [] None; CFinalizeAuth ex_env "https://op.example" ex_resp; CTokens ex_env ex_state].
Example C53_user_info_ex : plain_client ex_client /\ Forall call_ok cx_calls /\ sdb ex_ctx = [] /\
  exists r, fst (get_user_info cx_env ex_client ex_state "AT1" (run_calls ex_client cx_calls ex_ctx)) = Ok r /\
    match r with RMsg m => dget "address" m = Some (VStr "Main St") /\ dget "sub" m = Some (VStr "u1") | _ => False end.
Proof.
  split; [split; [split; reflexivity|reflexivity]|]. split; [repeat constructor|]. split; [reflexivity|].
  apply ok_with with (f := fun r => match r with RMsg m => (match dget "address" m with Some w => val_eqb w (VStr "Main St") | None => false end) &&
     (match dget "sub" m with Some w => val_eqb w (VStr "u1") | None => false end) | _ => false end).
  - intros [m| |]; try discriminate. intros H. apply andb_prop in H. destruct H. split; now apply get_if.
  - vm_compute. reflexivity.
Qed.

(** C53, deviation: nothing keeps the sources from being asked for the subject itself.
    After fetch_distributed_claims the user info is about whom the source names. *)
Theorem C53_subject_kept_by_fetch_refuted : exists http c cb ui log ui',
  proper_claims ui /\ dget "sub" ui = Some (VStr "u1") /\
  fetch_distributed_claims http true c cb ui = (log, (Done, ui')) /\ dget "sub" ui' = Some (VStr "admin").
Proof.
  exists (fun u m b h => Ok (mkresp 200 None (json_dumps (VDict [("sub", VStr "admin")])))), ex_ctx, None,
    [("sub", VStr "u1"); ("_claim_names", VDict [("sub", VStr "s")]); ("_claim_sources", VDict [("s", VDict [("endpoint", VStr "https://x.example")])])].
  eexists _, _. split; [|split; [reflexivity|split; [vm_compute; reflexivity|reflexivity]]].
  split; cbn; intros x [= <-]; [split|]; cbn; try (intuition discriminate); repeat constructor; cbn; intuition discriminate.
Qed.
Print Assumptions C53_subject_kept_by_fetch_refuted.
