(** Property theorem C61: an attempt to complete a login that fails, or that is stopped
    anywhere, does not spoil the next one.  Proofs in P_Retry.v, specification in S_Retry.v. *)
From Verif Require Import Base BaseP Json Msg M_State S_State M_Ctx M_Codec M_Authz M_ClientAuth M_Service M_Token M_Handler
  S_Token S_Handler S_Trace S_Sched S_Retry P_Retry Ex.

(** C61: whatever attempts were made before (with any responses for the session and any
    answers of the provider), finalize answers as if they had not been made, and what is
    read about the session after a login is the same. *)
Theorem C61_earlier_attempts_do_not_matter : forall cl os c0 k i collect os' W iss resp,
  plain_client cl -> Forall call_ok os -> sdb c0 = [] -> rnd32 k ->
  let c := run_calls cl os c0 in
  get_iss (sdb c) k = Ok i -> Forall (attempt k collect) os' -> tame W -> state_of resp = Some k ->
  finalize_again cl W iss resp collect k c (run_calls cl os' c).
Proof. exact attempts_again. Qed.
Print Assumptions C61_earlier_attempts_do_not_matter.

(** C61: stopped anywhere.  An attempt is a sequence of writes to the session store; after
    any number of them finalize can be called again, with the same outcome. *)
Theorem C61_stopped_anywhere : forall cl os c0 k i collect o,
  plain_client cl -> Forall call_ok os -> sdb c0 = [] -> rnd32 k ->
  let c := run_calls cl os c0 in
  get_iss (sdb c) k = Ok i -> attempt k collect o ->
  exists ops, run_call cl o c = stopped_after c ops /\
    forall n W iss resp, tame W -> state_of resp = Some k -> finalize_again cl W iss resp collect k c (stopped_after c (firstn n ops)).
Proof. exact crash_again. Qed.
Print Assumptions C61_stopped_anywhere.

(** C61: the same for any writes of the kinds an attempt makes, in any order and number *)
Theorem C61_any_partial_writes : forall cl os c0 k i collect ops W iss resp,
  plain_client cl -> Forall call_ok os -> sdb c0 = [] -> rnd32 k ->
  let c := run_calls cl os c0 in
  get_iss (sdb c) k = Ok i -> Forall (attempt_op (sdb c) k collect) ops -> tame W -> state_of resp = Some k ->
  finalize_again cl W iss resp collect k c (stopped_after c ops).
Proof. exact stopped_again. Qed.
Print Assumptions C61_any_partial_writes.

(** C61, the other side: nothing remembers that a response was used.  When a response led
    to a login, the same response leads to the same login again (as far as the client is
    concerned: only the provider can refuse the code). *)
Theorem C61_a_response_can_be_used_again : forall cl os c0 k i W iss resp collect f,
  plain_client cl -> Forall call_ok os -> sdb c0 = [] -> rnd32 k -> tame W -> state_of resp = Some k ->
  let c := run_calls cl os c0 in
  get_iss (sdb c) k = Ok i ->
  answer_of cl (CFinalize W iss resp collect) c = Ok f ->
  answer_of cl (CFinalize W iss resp collect) (run_call cl (CFinalize W iss resp collect) c) = Ok f.
Proof.
  intros cl os c0 k i W iss resp collect f PC OK E Hk T S c I A.
  destruct (attempts_again cl os c0 k i collect [CFinalize W iss resp collect] W iss resp PC OK E Hk I) as [X _]; auto.
  { constructor; [cbn; auto|constructor]. }
  fold c in X. rewrite A in X. destruct X as [X|(e1 & e2 & X & _)]; [now symmetry|discriminate].
Qed.
Print Assumptions C61_a_response_can_be_used_again.

(** ** A login that succeeds the third time *)
Definition rx_env (http : http_client) : env :=
  mkenv 1000 ex_nonce ex_state "x2" "n2" "LsLsLsLsLsLsLsLsLsLsLsLsLsLsLsLs" http (fun _ _ => Err OtherError) ex_vrf
    (fun _ => Ok None) (fun _ _ _ _ => Ok "reqobj") ex_authn (fun n => 7 * n) (fun m v => (m ++ "digest")%string).
Lemma rx_tame http : tame (rx_env http).
Proof.
  split; [|split]; [reflexivity| |reflexivity]. intros c m m' H. cbn in H. unfold ex_vrf in H. injection H as <-.
  destruct (dhas "id_token" m); [now rewrite dget_dset_neq by discriminate|reflexivity].
Qed.
(** first the token endpoint is down, then the user info endpoint, then all is well; a
    response with a wrong issuer and an error response come in between *)
Definition rx_down (u : string) : http_client := fun v m b h =>
  if v =?s u then Ok (mkresp 503 (Some "text/html") "busy") else ex_http v m b h.
Definition rx_iss := "https://op.example".
Definition rx_tries : list call :=
  [CFinalize (rx_env (rx_down "https://op.example/token")) rx_iss ex_resp false;
   CFinalize (rx_env (rx_down "https://op.example/userinfo")) rx_iss ex_resp false;
   CFinalize (rx_env ex_http) "https://other.example" ex_resp false;
   CFinalize (rx_env ex_http) rx_iss [("error", VStr "access_denied"); ("state", VStr ex_state)] false;
   CUserInfo (rx_env ex_http) ex_state "AT1"].
Definition rx_begin : list call := [CInit (rx_env ex_http) [] None].
Definition rx_last : call := CFinalize (rx_env ex_http) rx_iss ex_resp false.
Definition rx_login (r : res answer) : bool :=
  match r with Ok (AFinal (FOk info (VStr s) (VStr a) (VDict idt) _)) => (s =?s ex_state) && (a =?s "AT1") && otruthy (dget "email" info) | _ => false end.
Fixpoint fails (cl : client) (os : list call) (c : ctx) : list bool :=
  match os with [] => [] | o :: r => (match answer_of cl o c with Ok _ => false | Err _ => true end) :: fails cl r (run_call cl o c) end.
Example C61_ex :
  let c := run_calls ex_client rx_begin ex_ctx in
  plain_client ex_client /\ Forall call_ok rx_begin /\ sdb ex_ctx = [] /\ rnd32 ex_state /\
  get_iss (sdb c) ex_state = Ok (VStr rx_iss) /\ Forall (attempt ex_state false) rx_tries /\ tame (rx_env ex_http) /\ state_of ex_resp = Some ex_state /\
  fails ex_client rx_tries c = [true; true; true; false; false] /\
  rx_login (answer_of ex_client rx_last c) = true /\ rx_login (answer_of ex_client rx_last (run_calls ex_client rx_tries c)) = true /\
  (* the second attempt had stored tokens when it failed *)
  (exists m, get_item (sdb (run_calls ex_client (firstn 2 rx_tries) c)) cTokenResponse "token_response" ex_state = Ok m).
Proof.
  cbv zeta. split; [split; [split|]; reflexivity|]. split; [repeat constructor|]. split; [reflexivity|]. split; [split; reflexivity|].
  split; [vm_compute; reflexivity|].
  split; [repeat (constructor; [cbn; repeat split; try apply rx_tame; vm_compute; reflexivity|]); constructor|].
  split; [apply rx_tame|]. split; [vm_compute; reflexivity|]. split; [vm_compute; reflexivity|]. split; [vm_compute; reflexivity|].
  split; [vm_compute; reflexivity|]. apply ok_if. vm_compute. reflexivity.
Qed.

(** C61 needs the attempts to agree on where the tokens come from: after an attempt that
    asked for the tokens of the token endpoint as well, a login with the tokens of the
    authorization response is left with an access token it did not get. *)
Definition ry_begin : list call := [CInit (rx_env ex_http) [("response_type", VStr "code token")] None].
Definition ry_resp : dict val :=
  [("code", VStr "c0de"); ("access_token", VStr "FT"); ("token_type", VStr "Bearer"); ("expires_in", VInt 60); ("state", VStr ex_state)].
Theorem C61_other_source_refuted : exists cl os c0 k W iss resp f a b x y,
  plain_client cl /\ Forall call_ok os /\ sdb c0 = [] /\ rnd32 k /\ tame W /\ state_of resp = Some k /\
  let c := run_calls cl os c0 in let c' := run_call cl (CFinalize W iss resp true) c in
  let o := CFinalize W iss resp false in
  get_iss (sdb c) k = Ok (VStr iss) /\
  answer_of cl o c = Ok f /\ answer_of cl o c' = Ok f /\
  get_valid_access_token 1000 (sdb (run_call cl o c)) k = Ok (VStr a, x) /\
  get_valid_access_token 1000 (sdb (run_call cl o c')) k = Ok (VStr b, y) /\ a <> b.
Proof.
  exists ex_client, ry_begin, ex_ctx, ex_state, (rx_env ex_http), rx_iss, ry_resp.
  assert (E : exists f, answer_of ex_client (CFinalize (rx_env ex_http) rx_iss ry_resp false) (run_calls ex_client ry_begin ex_ctx) = Ok f).
  { apply ok_if. vm_compute. reflexivity. }
  destruct E as [f E]. exists f, "FT", "AT1", 1060%Z, 4600%Z.
  split; [split; [split|]; reflexivity|]. split; [repeat constructor|]. split; [reflexivity|]. split; [split; reflexivity|].
  split; [apply rx_tame|]. split; [vm_compute; reflexivity|]. cbv zeta. split; [vm_compute; reflexivity|]. split; [exact E|].
  split; [rewrite <- E; vm_compute; reflexivity|]. split; [vm_compute; reflexivity|]. split; [vm_compute; reflexivity|discriminate].
Qed.
Print Assumptions C61_other_source_refuted.
