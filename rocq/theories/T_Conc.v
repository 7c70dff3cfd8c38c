(** Property theorems C63: threads that use one client at the same time.
    Model in M_Conc.v, specification in S_Conc.v, proofs in P_Conc.v. *)
From Verif Require Import Base BaseP Json Msg M_State S_State M_Ctx M_Codec M_Authz M_ClientAuth M_Service M_Token M_Handler M_Verify
  S_Token S_Handler S_Trace S_Sched M_Conc S_Conc P_State P_Ctx P_Trace P_Sched P_Conc Ex T_Verify T_Logout T_Sched.

(** C63: a thread that runs without interruption does what the call of M_Handler.v does. *)
Theorem C63_uninterrupted_is_the_call : forall cl o c, run (prog_of cl o) c = (answer_of cl o c, run_call cl o c).
Proof. apply run_prog. Qed.
Print Assumptions C63_uninterrupted_is_the_call.

(** C63: however the scheduler switches between the threads, each thread that works on
    session [k] comes as far, and answers the same, as when only the threads of session [k]
    had moved. *)
Theorem C63_threads_of_other_sessions_do_not_matter : forall cl k jobs sched c,
  plain_client cl -> rnd32 k -> sdb c = [] -> schedule c k (map jobs sched) ->
  forall i, about k (jobs i) = true ->
    same_progress (fst (play sched (start cl jobs, c)) i) (fst (play (moves_of k jobs sched) (start cl jobs, c)) i).
Proof.
  intros cl k jobs sched c PC Hk E S i Hi.
  pose proof (rel_play k Hk c jobs sched _ S (incl_refl _) sched (incl_refl _) _ _ (rel_start k Hk c cl PC jobs sched _ S (incl_refl _) c c (Rc_start k c E) (Inv_start k c (map jobs sched) E))) as R.
  destruct (rel_mine _ _ _ _ _ _ _ R i Hi) as [->|(e1 & e2 & -> & ->)].
  - unfold same_progress. destruct (outcome _); [now left|exact I].
  - right. eauto.
Qed.
Print Assumptions C63_threads_of_other_sessions_do_not_matter.

(** C63: when the calls of session [k] follow one another (they need not be adjacent: other
    threads move in between, also while a call waits for the network), they answer as in the
    sequential history that consists of these calls alone. *)
Theorem C63_as_if_alone : forall cl k jobs sched c is n,
  plain_client cl -> rnd32 k -> sdb c = [] -> schedule c k (map jobs sched) ->
  NoDup is -> moves_of k jobs sched = one_by_one is n ->
  (forall i, In i is -> about k (jobs i) = true /\ outcome (fst (play sched (start cl jobs, c)) i) <> None) ->
  Forall2 (fun i r => exists r', outcome (fst (play sched (start cl jobs, c)) i) = Some r' /\ same_outcome r' r)
    is (answers cl k (map jobs is) c).
Proof.
  intros cl k jobs sched c is n PC Hk E S ND EM HD.
  pose proof (C63_threads_of_other_sessions_do_not_matter cl k jobs sched c PC Hk E S) as T. rewrite EM in T.
  destruct (turns cl k jobs n is ND (fun i Hi => proj1 (HD i Hi)) (start cl jobs) c (fun _ _ => eq_refl)) as [F _].
  { intros i Hi. specialize (T i (proj1 (HD i Hi))). unfold same_progress in T. destruct (outcome (fst (play sched _) i)) eqn:Eo.
    - destruct (outcome (fst (play (one_by_one is n) _) i)); [discriminate|contradiction].
    - destruct (HD i Hi) as [_ X]. now destruct (X Eo). }
  assert (G : forall l rs, Forall2 (fun i r => outcome (fst (play (one_by_one is n) (start cl jobs, c)) i) = Some r) l rs -> incl l is ->
     Forall2 (fun i r => exists r', outcome (fst (play sched (start cl jobs, c)) i) = Some r' /\ same_outcome r' r) l rs).
  { induction 1 as [|i r l rs H1 H2 IH]; intros HI; constructor.
    - assert (Hi : In i is) by (apply HI; now left). specialize (T i (proj1 (HD i Hi))). unfold same_progress in T. rewrite H1 in T.
      destruct (outcome (fst (play sched _) i)) as [r'|]; [|contradiction]. eauto.
    - apply IH. intros x Hx. apply HI. now right. }
  apply G; [exact F|apply incl_refl].
Qed.
Print Assumptions C63_as_if_alone.

(** C63: and at any moment, also in the middle of calls, what can be read about session [k]
    is what the moves of its own threads have left. *)
Theorem C63_what_is_read_is_the_same : forall cl k jobs sched c,
  plain_client cl -> rnd32 k -> sdb c = [] -> schedule c k (map jobs sched) ->
  let d1 := sdb (snd (play sched (start cl jobs, c))) in let d2 := sdb (snd (play (moves_of k jobs sched) (start cl jobs, c))) in
  (forall cc t, get_item d1 cc t k = get_item d2 cc t k) /\ get_iss d1 k = get_iss d2 k /\
  (forall now, has_active_authentication now d1 k = has_active_authentication now d2 k) /\
  (forall now, get_valid_access_token now d1 k = get_valid_access_token now d2 k) /\
  (forall n, get_state_by_nonce d1 n = Ok k <-> get_state_by_nonce d2 n = Ok k).
Proof.
  intros cl k jobs sched c PC Hk E S.
  pose proof (rel_play k Hk c jobs sched _ S (incl_refl _) sched (incl_refl _) _ _ (rel_start k Hk c cl PC jobs sched _ S (incl_refl _) c c (Rc_start k c E) (Inv_start k c (map jobs sched) E))) as [(R & _) _ _ _ _].
  cbv zeta. split; [intros; now apply R_item|]. split; [now apply R_iss|].
  split; [intros; unfold has_active_authentication; now rewrite (R_mult k _ _ _ _ _ _ R)|].
  split; [|intros; now apply R_nonce].
  intros now. unfold get_valid_access_token. now rewrite !(R_item k _ _ _ _ R).
Qed.
Print Assumptions C63_what_is_read_is_the_same.

(** C63: no call waits for another thread: after thirteen moves of its own a thread is done,
    whatever the calls and the schedule. *)
Theorem C63_every_call_ends : forall cl jobs sched c i,
  13 <= count_occ Nat.eq_dec sched i -> outcome (fst (play sched (start cl jobs, c)) i) <> None.
Proof. intros cl jobs sched c i H. apply (within_play i sched _ 13); [apply within_prog|exact H]. Qed.
Print Assumptions C63_every_call_ends.

(** ** Two logins at the same time: both requests are made before an answer arrives, and
    while the first waits for its tokens the second completes *)
Definition cx_jobs (i : nat) : call :=
  nth i [CInit (lx_env ex_state "a") [] None; CInit (lx_env lx_k2 "b") [] None;
         CFinalize (lx_env ex_state "a") "https://op.example" (sx_resp ex_state) false;
         CFinalize (lx_env lx_k2 "b") "https://op.example" (sx_resp lx_k2) false] (CClear lx_k2).
Definition cx_sched : list nat :=
  [0; 1; 0; 1; 1; 0; 0; 1; 1; 0; 2; 3; 2; 3; 3; 2; 2; 3] ++ repeat 3 9 ++ [4] ++ repeat 2 9.
Definition cx_n (i : nat) : nat := match i with 0 => 5 | _ => 13 end.
Definition cx_done (p : prog answer) (f : res answer -> bool) : bool := match outcome p with Some r => f r | None => false end.
Example C63_ex : plain_client lx_client /\ rnd32 ex_state /\ sdb lx_ctx = [] /\ schedule lx_ctx ex_state (map cx_jobs cx_sched) /\
  moves_of ex_state cx_jobs cx_sched = one_by_one [0; 2] cx_n /\
  (forall i, In i [0; 2] -> about ex_state (cx_jobs i) = true /\ outcome (fst (play cx_sched (start lx_client cx_jobs, lx_ctx)) i) <> None) /\
  cx_done (fst (play cx_sched (start lx_client cx_jobs, lx_ctx)) 2) sx_ok = true /\
  (* after ten moves both have begun and neither is done *)
  outcome (fst (play (firstn 14 cx_sched) (start lx_client cx_jobs, lx_ctx)) 2) = None /\
  outcome (fst (play (firstn 14 cx_sched) (start lx_client cx_jobs, lx_ctx)) 3) = None.
Proof.
  split; [split; split; reflexivity|]. split; [split; reflexivity|]. split; [reflexivity|]. split.
  { split; [repeat constructor; cbn; auto|]. split; [repeat (constructor; [exact I || apply lx_tame|]); constructor|]. split.
    - intros W reqs beh W' reqs' beh' n H1 H2 Hs U U'.
      assert (X : forall W reqs beh, In (CInit W reqs beh) (map cx_jobs cx_sched) -> CInit W reqs beh = cx_jobs 0 \/ CInit W reqs beh = cx_jobs 1).
      { clear. intros W reqs beh H. apply in_map_iff in H. destruct H as (i & E & _). destruct i as [|[|[|[|[|i]]]]]; try discriminate; auto. }
      destruct (X _ _ _ H1) as [Y|Y]; injection Y as -> -> ->; [|discriminate Hs].
      destruct (X _ _ _ H2) as [Z|Z]; injection Z as -> -> ->; [reflexivity|].
      destruct U as [->|U]; destruct U' as [U'|U']; cbn in *; congruence.
    - intros H. apply in_map_iff in H. destruct H as (i & E & _). destruct i as [|[|[|[|[|i]]]]]; discriminate. }
  split; [reflexivity|]. split.
  { intros i Hi. cbn in Hi. destruct Hi as [<-|[<-|[]]].
    - split; [reflexivity|]. assert (E : cx_done (fst (play cx_sched (start lx_client cx_jobs, lx_ctx)) 0) (fun _ => true) = true) by (vm_compute; reflexivity).
      unfold cx_done in E. now destruct (outcome _).
    - split; [reflexivity|]. assert (E : cx_done (fst (play cx_sched (start lx_client cx_jobs, lx_ctx)) 2) (fun _ => true) = true) by (vm_compute; reflexivity).
      unfold cx_done in E. now destruct (outcome _). }
  split; [vm_compute; reflexivity|].
  assert (N : forall p, cx_done p (fun _ => true) = false -> outcome p = None) by (intros p; unfold cx_done; now destruct (outcome p)).
  split; apply N; vm_compute; reflexivity.
Qed.

(** C63 excludes the clearing of [k] itself.  A call that waits for the network while its
    session is cleared stores its answer in a new session of that name: after clear_session
    has returned, the access token is there again.  In neither order of the two calls, one
    after the other, is there a token afterwards. *)
Definition rx_jobs (i : nat) : call :=
  nth i [CInit ex_env [] None; CFinalize ex_env "https://op.example" ex_resp false; CRefresh ex_env ex_state ""] (CClear ex_state).
Definition rx_login : list nat := repeat 0 5 ++ repeat 1 13.
Theorem C63_clearing_during_a_call_refuted : exists cl k jobs c s1 s2 s3 now t x,
  plain_client cl /\ rnd32 k /\ sdb c = [] /\ Forall call_ok (map jobs (s1 ++ s2 ++ s3)) /\ Forall tame_call (map jobs (s1 ++ s2 ++ s3)) /\
  jobs 3 = CClear k /\
  outcome (fst (play (s1 ++ [3] ++ s2) (start cl jobs, c)) 3) = Some (Ok ADone) /\
  get_valid_access_token now (sdb (snd (play (s1 ++ [3] ++ s2) (start cl jobs, c)))) k = Ok (t, x) /\
  get_valid_access_token now (sdb (snd (play (s1 ++ s2 ++ [3]) (start cl jobs, c)))) k = Err OidcServiceError /\
  get_valid_access_token now (sdb (snd (play (s3 ++ [3] ++ repeat 2 13) (start cl jobs, c)))) k = Err OidcServiceError.
Proof.
  exists ex_client, ex_state, rx_jobs, ex_ctx, (rx_login ++ [2; 2]), [2; 2], rx_login, 1000%Z, (VStr "AT1"), 4600%Z.
  split; [split; split; reflexivity|]. split; [split; reflexivity|]. split; [reflexivity|].
  assert (TE : tame ex_env).
  { split; [reflexivity|]. split; [|reflexivity]. intros c m m'. cbn. unfold ex_vrf. intros H. injection H as <-.
    destruct (dhas "id_token" m); [now rewrite dget_dset_neq by discriminate|reflexivity]. }
  split; [repeat constructor|]. split; [repeat (constructor; [exact TE || exact I|]); constructor|].
  split; [reflexivity|]. split; [vm_compute; reflexivity|]. split; [vm_compute; reflexivity|]. split; vm_compute; reflexivity.
Qed.
Print Assumptions C63_clearing_during_a_call_refuted.
