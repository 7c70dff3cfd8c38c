(** Property theorem C60: sessions do not disturb one another.
    Proofs in P_Sched.v, specification in S_Sched.v. *)
From Verif Require Import Base BaseP Json Msg M_State S_State M_Ctx M_Codec M_Authz M_ClientAuth M_Service M_Token M_Handler M_Verify
  S_Token S_Handler S_Trace S_Sched P_State P_Ctx P_Trace P_Sched Ex T_Verify T_Logout.

Lemma Rc_start k c : sdb c = [] -> Rc k c c c.
Proof.
  intros E. split; [|split; symmetry; apply set_db_same]. rewrite E. repeat split; auto; try (intros; discriminate).
Qed.
Lemma Inv_start k c os : sdb c = [] -> Inv k (nonces_of c k os) (sdb c).
Proof. intros ->. unfold Inv. repeat split; intros; try discriminate; contradiction. Qed.

(** C60: whatever calls of other sessions a history has between the calls of session [k]
    (logins begun, completed, given up or logged out, by other users, in any order), every
    call of session [k] answers as it would without them. *)
Theorem C60_calls_of_other_sessions_do_not_matter : forall cl k os c,
  plain_client cl -> rnd32 k -> sdb c = [] -> schedule c k os ->
  Forall2 same_outcome (answers cl k os c) (answers cl k (calls_of k os) c).
Proof.
  intros cl k os c PC Hk E S. apply (schedule_run k c cl os Hk PC S os (incl_refl _) c c (Rc_start k c E) (Inv_start k c os E)).
Qed.
Print Assumptions C60_calls_of_other_sessions_do_not_matter.

Lemma same_sym r1 r2 : same_outcome r1 r2 -> same_outcome r2 r1.
Proof. intros [->|(e1 & e2 & -> & ->)]; [now left|right; eauto]. Qed.
Lemma same_trans r1 r2 r3 : same_outcome r1 r2 -> same_outcome r2 r3 -> same_outcome r1 r3.
Proof.
  intros [->|(e1 & e2 & -> & ->)]; [auto|]. intros [<-|(e3 & e4 & _ & ->)]; right; eauto.
Qed.
(** C60: two histories with the same calls of session [k], however these are interleaved
    with whatever other calls, give the same answers. *)
Theorem C60_any_two_schedules : forall cl k os1 os2 c,
  plain_client cl -> rnd32 k -> sdb c = [] -> schedule c k os1 -> schedule c k os2 -> calls_of k os1 = calls_of k os2 ->
  Forall2 same_outcome (answers cl k os1 c) (answers cl k os2 c).
Proof.
  intros cl k os1 os2 c PC Hk E S1 S2 EQ.
  pose proof (C60_calls_of_other_sessions_do_not_matter cl k os1 c PC Hk E S1) as F1.
  pose proof (C60_calls_of_other_sessions_do_not_matter cl k os2 c PC Hk E S2) as F2. rewrite <- EQ in F2. revert F1 F2.
  generalize (answers cl k os1 c) as l1, (answers cl k os2 c) as l2, (answers cl k (calls_of k os1) c) as l3.
  induction l1 as [|a l1 IH]; intros l2 l3 F1 F2; inversion F1; subst; inversion F2; subst; constructor.
  - eapply same_trans; [eassumption|now apply same_sym].
  - eapply IH; eauto.
Qed.
Print Assumptions C60_any_two_schedules.

(** C60: and what the client reads about session [k] afterwards is the same: the stored
    requests and responses, the issuer, whether the user is logged in, the access token,
    and the nonces that lead to it. *)
Theorem C60_what_is_read_is_the_same : forall cl k os c,
  plain_client cl -> rnd32 k -> sdb c = [] -> schedule c k os ->
  let d1 := sdb (run_calls cl os c) in let d2 := sdb (run_calls cl (calls_of k os) c) in
  (forall cc t, get_item d1 cc t k = get_item d2 cc t k) /\ get_iss d1 k = get_iss d2 k /\
  (forall now, has_active_authentication now d1 k = has_active_authentication now d2 k) /\
  (forall now, get_valid_access_token now d1 k = get_valid_access_token now d2 k) /\
  (forall n, get_state_by_nonce d1 n = Ok k <-> get_state_by_nonce d2 n = Ok k).
Proof.
  intros cl k os c PC Hk E S.
  destruct (schedule_run k c cl os Hk PC S os (incl_refl _) c c (Rc_start k c E) (Inv_start k c os E)) as [_ (R & _)].
  cbv zeta. split; [intros; now apply R_item|]. split; [now apply R_iss|].
  split; [intros; unfold has_active_authentication; now rewrite (R_mult k _ _ _ _ _ _ R)|].
  split; [|intros; now apply R_nonce].
  intros now. unfold get_valid_access_token. now rewrite !(R_item k _ _ _ _ R).
Qed.
Print Assumptions C60_what_is_read_is_the_same.

(** ** Two logins, interleaved *)
Lemma gva_set name d c : gather_verify_arguments name (set_db d c) = gather_verify_arguments name c.
Proof. reflexivity. Qed.
Lemma lx_tame state raw : tame (lx_env state raw).
Proof.
  split; [|split].
  - intros name d c m. cbn. now rewrite gva_set.
  - intros c m m'. cbn. unfold ref_verifier. destruct (uniqb m); [|discriminate]. unfold ref_verify.
    match goal with |- context [dget "id_token" ?x] => destruct (dget "id_token" x) as [[| | |t| |]|] end; try discriminate;
    repeat match goal with |- context [match ?x with _ => _ end] => destruct x; try discriminate end;
    intros H; injection H as <-; rewrite ?dget_dset_neq, ?dget_ddel_neq by discriminate; reflexivity.
  - reflexivity.
Qed.
Definition sx_resp (state : string) : dict val := [("code", VStr "c0de"); ("state", VStr state)].
(** session [ex_state] is begun first and completed last; [lx_k2] is begun, completed,
    begun again and cleared meanwhile; a response with an unknown state arrives *)
Definition sx_other : list call :=
  [CInit (lx_env lx_k2 "b") [] None;
   CFinalize (lx_env lx_k2 "b") "https://op.example" (sx_resp lx_k2) false;
   CFinalize (lx_env lx_k2 "b") "https://op.example" (sx_resp "nobody") false;
   CClear lx_k2].
Definition sx_all : list call :=
  CInit (lx_env ex_state "a") [] None :: sx_other ++
  [CFinalize (lx_env ex_state "a") "https://op.example" (sx_resp ex_state) false].
Definition sx_ok (r : res answer) : bool :=
  match r with
  | Ok (AFinal (FOk _ (VStr s) _ idt _)) => (s =?s ex_state) && val_eqb idt (VDict (lx_claims "a"))
  | _ => false
  end.
Example C60_ex : plain_client lx_client /\ rnd32 ex_state /\ sdb lx_ctx = [] /\ schedule lx_ctx ex_state sx_all /\
  List.length (calls_of ex_state sx_all) = 2 /\ List.length sx_all = 6 /\
  match answers lx_client ex_state sx_all lx_ctx with [Ok (AUrl _ _); r] => sx_ok r = true | _ => False end.
Proof.
  split; [split; split; reflexivity|]. split; [split; reflexivity|]. split; [reflexivity|]. split.
  - split; [repeat constructor; cbn; auto|]. split; [repeat (constructor; [exact I || apply lx_tame|]); constructor|]. split.
    + intros W reqs beh W' reqs' beh' n H1 H2 Hs U U'. cbn in H1, H2.
      destruct H1 as [H1|[H1|[H1|[H1|[H1|[H1|[]]]]]]]; try discriminate H1; injection H1 as <- <- <-; [|discriminate Hs].
      destruct H2 as [H2|[H2|[H2|[H2|[H2|[H2|[]]]]]]]; try discriminate H2; injection H2 as <- <- <-; [reflexivity|].
      destruct U as [->|U]; destruct U' as [U'|U']; cbn in *; congruence.
    + cbn. intuition discriminate.
  - split; [reflexivity|]. split; [reflexivity|].
    assert (E : (match answers lx_client ex_state sx_all lx_ctx with [Ok (AUrl _ _); r] => sx_ok r | _ => false end) = true) by (vm_compute; reflexivity).
    destruct (answers lx_client ex_state sx_all lx_ctx) as [|[[]|] [|r []]]; try discriminate. exact E.
Qed.

(** C60 needs the nonces to be distinct: when every authorization request is configured
    with the same nonce, a login begun by another user makes the first one fail. *)
Definition sx_same : list call :=
  [CInit (lx_env ex_state "a") [] None; CInit (lx_env lx_k2 "b") [("nonce", VStr "anonce")] None;
   CFinalize (lx_env ex_state "a") "https://op.example" (sx_resp ex_state) false].
Theorem C60_shared_nonce_refuted : exists cl k os c a b,
  plain_client cl /\ rnd32 k /\ sdb c = [] /\ Forall call_ok os /\ Forall tame_call os /\ ~ In (CClear k) os /\
  answers cl k os c = [a; Err b] /\ exists a' f, answers cl k (calls_of k os) c = [a'; Ok (AFinal f)] /\ sx_ok (Ok (AFinal f)) = true.
Proof.
  exists lx_client, ex_state, sx_same, lx_ctx.
  assert (E1 : (match answers lx_client ex_state sx_same lx_ctx with [_; Err _] => true | _ => false end) = true) by (vm_compute; reflexivity).
  assert (E2 : (match answers lx_client ex_state (calls_of ex_state sx_same) lx_ctx with [_; r] => sx_ok r | _ => false end) = true) by (vm_compute; reflexivity).
  revert E1 E2. generalize (answers lx_client ex_state sx_same lx_ctx) as l1, (answers lx_client ex_state (calls_of ex_state sx_same) lx_ctx) as l2.
  intros l1 l2 E1 E2. destruct l1 as [|a [|[|b] []]]; try discriminate. exists a, b.
  split; [split; split; reflexivity|]. split; [split; reflexivity|]. split; [reflexivity|].
  split; [repeat constructor; cbn; auto|]. split; [repeat (constructor; [exact I || apply lx_tame|]); constructor|].
  split; [cbn; intuition discriminate|]. split; [reflexivity|].
  destruct l2 as [|a' [|[[]|] []]]; try discriminate. exists a', f. split; [reflexivity|exact E2].
Qed.
Print Assumptions C60_shared_nonce_refuted.

(** C60 excludes the clearing of [k] itself, because its answer does depend on others: when
    a user has two sessions and the later one is cleared first, clearing the earlier one
    raises KeyError, although without the other session it succeeds. *)
Definition sx_clear : list call := lx_login ex_state "a" ++ lx_login lx_k2 "b" ++ [CClear lx_k2; CClear ex_state].
Theorem C60_clearing_refuted : exists cl k os c e,
  plain_client cl /\ rnd32 k /\ sdb c = [] /\ Forall call_ok os /\ Forall tame_call os /\ own_nonces c k os /\
  last (answers cl k os c) (Ok ADone) = Err e /\ last (answers cl k (calls_of k os) c) (Err e) = Ok ADone.
Proof.
  exists lx_client, ex_state, sx_clear, lx_ctx, (KeyError "==u1==").
  split; [split; split; reflexivity|]. split; [split; reflexivity|]. split; [reflexivity|].
  split; [repeat constructor; cbn; auto|]. split; [repeat (constructor; [exact I || apply lx_tame|]); constructor|]. split.
  - intros W reqs beh W' reqs' beh' n H1 H2 Hs U U'. cbn in H1, H2.
    destruct H1 as [H1|[H1|[H1|[H1|[H1|[H1|[]]]]]]]; try discriminate H1; injection H1 as <- <- <-; [|discriminate Hs].
    destruct H2 as [H2|[H2|[H2|[H2|[H2|[H2|[]]]]]]]; try discriminate H2; injection H2 as <- <- <-; [reflexivity|].
    destruct U as [->|U]; destruct U' as [U'|U']; cbn in *; congruence.
  - split; vm_compute; reflexivity.
Qed.
Print Assumptions C60_clearing_refuted.
