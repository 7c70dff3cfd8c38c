(** Property theorems C71: the process dies and is started again.
    Model in M_Crash.v, specification in S_Crash.v, proofs in P_Crash.v. *)
From Verif Require Import Base BaseP Json Msg M_State S_State M_Ctx M_Codec M_Authz M_ClientAuth M_Service M_Token M_Handler M_Verify
  S_Token S_Handler S_Trace S_Sched M_Conc S_Conc M_Crash S_Crash P_State P_Ctx P_Trace P_Sched P_Conc P_Crash Ex T_Verify T_Logout T_Sched T_Conc.

(** ** The store *)
(** C71: the writes the model cuts between are those of the operation. *)
Theorem C71_writes_are_the_operation : forall d o n,
  do_writes d (writes_of d o) = snd (cstep d o) /\
  (List.length (writes_of d o) <= n -> cut n d o = snd (cstep d o)) /\ cut 0 d o = d.
Proof. intros d o n. split; [apply writes_all|]. split; [apply cut_all|apply cut_0]. Qed.
Print Assumptions C71_writes_are_the_operation.

(** C71: whatever operations were cut, and wherever, every session reads back as if each
    operation had been done completely or not at all. *)
Theorem C71_sessions_all_or_nothing : forall K h,
  key_family K -> Forall (fun e => op_ok K (fst e)) h ->
  let d := after_all [] h in
  (forall k c t, K k -> t <> "iss" ->
     match latest_item (rev (effective h)) k t with
     | Some i => get_item d c t k = msg_new c i
     | None => exists e, get_item d c t k = Err (KeyError e)
     end) /\
  (forall k, K k ->
     match latest_iss (rev (effective h)) k with
     | Some i => get_iss d k = Ok (VStr i)
     | None => exists e, get_iss d k = Err (KeyError e)
     end).
Proof. intros K h HK F. exact (crash_items K HK h F). Qed.
Print Assumptions C71_sessions_all_or_nothing.

(** C71: a value leads to a session only if it was bound to that session, ... *)
Theorem C71_only_bound_values : forall K h x v k,
  key_family K -> Forall (fun e => op_ok K (fst e)) h -> In x kinds ->
  get_state_by_x (after_all [] h) v x = Ok k -> In (Bind x v k) (effective h).
Proof. intros K h x v k HK F Hx. exact (crash_bound K HK h x v k F Hx). Qed.
Print Assumptions C71_only_bound_values.
(** ... and, as long as nothing was removed, to the one it was bound to last. *)
Theorem C71_index_lookup : forall K h x v,
  key_family K -> Forall (fun e => op_ok K (fst e)) h -> In x kinds ->
  forallb (fun o => negb (is_remove o)) (effective h) = true ->
  get_state_by_x (after_all [] h) v x = match latest_bind (rev (effective h)) x v with Some k => Ok k | None => Err (KeyError v) end.
Proof. intros K h x v HK F Hx. exact (crash_index K HK h x v F Hx). Qed.
Print Assumptions C71_index_lookup.

(** C71: whatever the database contains, a cut operation leaves the other sessions alone. *)
Theorem C71_other_sessions_untouched : forall K n d o k k',
  key_family K -> op_ok K o -> K k' ->
  k = (match o with Create r _ key => created_key r key | Store _ _ _ k => k | Bind _ _ k => k | Remove k => k end) ->
  (k' <> k \/ exists x v, o = Bind x v k) ->
  get_state (cut n d o) k' = get_state d k'.
Proof.
  intros K n d o k k' HK Ho Hk' Ek D. unfold get_state. rewrite cut_other; [reflexivity|]. intros E.
  destruct o as [rnd iss key|c m t q|x v q|q]; cbn [entry_of op_ok] in *.
  - destruct D as [D|(x & v & D)]; [congruence|discriminate].
  - destruct D as [D|(x & v & D)]; [congruence|discriminate].
  - destruct Ho as [Hq Hx]. destruct E as [E|E]; [exact (K_idx K HK k' x v Hk' Hx (eq_sym E))|exact (K_ref K HK q k' Hq Hk' (eq_sym E))].
  - destruct D as [D|(x & v & D)]; [|discriminate]. destruct E as [E|(x & v & Hx & E)]; [congruence|]. exact (K_idx K HK k' x v Hk' Hx (eq_sym E)).
Qed.
Print Assumptions C71_other_sessions_untouched.
Theorem C71_other_values_untouched : forall K n d o x v,
  key_family K -> op_ok K o -> In x kinds -> is_remove o = false -> (forall k, o <> Bind x v k) ->
  get_state_by_x (cut n d o) v x = get_state_by_x d v x.
Proof.
  intros K n d o x v HK Ho Hx NR NB. unfold get_state_by_x. rewrite (index_key_ok x v Hx), cut_other; [reflexivity|]. intros E.
  destruct o as [rnd iss key|c m t q|y w q|q]; cbn [entry_of op_ok] in *; [| | |discriminate].
  - apply (K_idx K HK (created_key rnd key) x v); [|exact Hx|exact E]. exact Ho.
  - apply (K_idx K HK q x v); [exact (proj1 Ho)|exact Hx|exact E].
  - destruct Ho as [Hq Hy]. destruct E as [E|E]; [|exact (idx_ref x v q Hx E)]. apply idx_inj in E; [|assumption..]. destruct E as [-> ->]. now apply (NB q).
Qed.
Print Assumptions C71_other_values_untouched.

(** C71: doing a cut create / store / bind again after the restart leaves a database that
    nobody can tell from the one without the crash. *)
Theorem C71_repeating_heals : forall K h o n,
  key_family K -> Forall (fun e => op_ok K (fst e)) h -> op_ok K o -> is_remove o = false ->
  indistinguishable K (snd (cstep (cut n (after_all [] h) o) o)) (snd (cstep (after_all [] h) o)).
Proof. intros K h o n HK F. exact (again K HK h o n F). Qed.
Print Assumptions C71_repeating_heals.

(** Not so for a removal: once it has begun it cannot be done again, ... *)
Theorem C71_removal_cannot_be_repeated : forall d k n, 0 < n -> dhas k d = true ->
  cstep (cut n d (Remove k)) (Remove k) = (Err (KeyError k), cut n d (Remove k)).
Proof.
  intros d k n Hn H.
  assert (G : forall refs n d', dget k d' = None -> dget k (do_writes d' (firstn n (ref_writes refs d'))) = None).
  { clear. induction refs as [|[x y] r IH]; intros n d' H; [cbn; now rewrite firstn_nil|].
    destruct y as [| | |v| |]; try (cbn; rewrite firstn_nil; exact H). cbn [ref_writes]. destruct (index_key x v) as [ik|]; [|rewrite firstn_nil; exact H].
    destruct (dhas ik d'); [|rewrite firstn_nil; exact H]. destruct n as [|n]; [exact H|]. cbn [firstn do_writes fold_left do_write].
    apply (IH n). rewrite dget_ddel. now destruct (ik =?s k). }
  assert (A : dget k (cut n d (Remove k)) = None).
  { unfold cut. cbn [writes_of]. rewrite H. destruct n as [|n]; [lia|]. cbn [firstn do_writes fold_left do_write].
    assert (N : dget k (ddel k d) = None) by (rewrite dget_ddel; now rewrite eqb_refl).
    destruct (dget (ref_key k) (ddel k d)) as [txt|]; [|rewrite firstn_nil; exact N].
    destruct (json_loads txt) as [[]|]; try (rewrite firstn_nil; exact N). apply (G _ n _ N). }
  cbn [cstep]. unfold remove_state, dhas. now rewrite A.
Qed.
Print Assumptions C71_removal_cannot_be_repeated.
(** ... and what it has not reached stays: the session is gone, its nonce still leads to it. *)
Theorem C71_interrupted_removal_refuted : exists h k v n,
  key_family rnd32 /\ Forall (fun e => op_ok rnd32 (fst e)) h /\ rnd32 k /\
  (exists d', cstep (after_all [] h) (Remove k) = (Ok "", d') /\ get_state_by_x d' v "nonce" = Err (KeyError v)) /\
  let d := cut n (after_all [] h) (Remove k) in
  get_iss d k = Err (KeyError k) /\ get_state_by_x d v "nonce" = Ok k /\
  fst (cstep d (Remove k)) = Err (KeyError k) /\ get_state_by_x (snd (cstep d (Remove k))) v "nonce" = Ok k.
Proof.
  exists [(Create ex_state "https://op.example" "", None); (Bind "nonce" "n1" ex_state, None)], ex_state, "n1", 1.
  split; [apply rnd32_family|]. split.
  { apply Forall_cons; [split; reflexivity|]. apply Forall_cons; [split; [split; reflexivity|cbn; auto]|]. constructor. }
  split; [split; reflexivity|]. split; [eexists; split; vm_compute; reflexivity|].
  cbv zeta. split; [vm_compute; reflexivity|]. split; [vm_compute; reflexivity|]. split; vm_compute; reflexivity.
Qed.
Print Assumptions C71_interrupted_removal_refuted.
(** A bind that is cut between its two writes, and not done again, is not cleaned up by a
    removal that succeeds. *)
Theorem C71_interrupted_bind_refuted : exists h k v,
  Forall (fun e => op_ok rnd32 (fst e)) h /\ rnd32 k /\ In (Bind "nonce" v k, Some 1) h /\
  fst (cstep (after_all [] h) (Remove k)) = Ok "" /\
  get_iss (snd (cstep (after_all [] h) (Remove k))) k = Err (KeyError k) /\
  get_state_by_x (snd (cstep (after_all [] h) (Remove k))) v "nonce" = Ok k.
Proof.
  exists [(Create ex_state "https://op.example" "", None); (Bind "subject id" "diana" ex_state, None); (Bind "nonce" "n1" ex_state, Some 1)], ex_state, "n1".
  split.
  { apply Forall_cons; [split; reflexivity|]. apply Forall_cons; [split; [split; reflexivity|cbn; auto]|]. apply Forall_cons; [split; [split; reflexivity|cbn; auto]|]. constructor. }
  split; [split; reflexivity|]. split; [right; right; left; reflexivity|]. split; [vm_compute; reflexivity|]. split; vm_compute; reflexivity.
Qed.
Print Assumptions C71_interrupted_bind_refuted.

(** a history with cut operations *)
Example C71_store_ex : exists h, Forall (fun e => op_ok rnd32 (fst e)) h /\
  effective h = [Create ex_state "https://op.example" ""; Bind "nonce" "n1" ex_state; Store cState [("iss", VStr "x")] "auth_request" ex_state] /\
  get_iss (after_all [] h) ex_state = Ok (VStr "https://op.example") /\ get_state_by_x (after_all [] h) "n1" "nonce" = Ok ex_state /\
  get_state_by_x (after_all [] h) "n2" "nonce" = Err (KeyError "n2").
Proof.
  exists [(Create ex_state "https://op.example" "", None); (Bind "nonce" "n1" ex_state, Some 1); (Bind "nonce" "n2" ex_state, Some 0);
          (Store cState [("iss", VStr "x")] "auth_request" ex_state, Some 1)].
  split.
  { apply Forall_cons; [split; reflexivity|]. apply Forall_cons; [split; [split; reflexivity|cbn; auto]|].
    apply Forall_cons; [split; [split; reflexivity|cbn; auto]|]. apply Forall_cons; [|constructor]. split; [split; reflexivity|discriminate]. }
  split; [reflexivity|]. split; [vm_compute; reflexivity|]. split; vm_compute; reflexivity.
Qed.

(** ** The application *)
(** C71: however often the process dies, and wherever its threads were: a session that is
    found was begun by a call of one of its lives, with this issuer. *)
Theorem C71_found_sessions_were_begun : forall cl c ls k i,
  plain_client cl -> Forall call_ok (calls_in ls) -> sdb c = [] ->
  get_iss (sdb (snd (lives cl c c ls))) k = Ok i ->
  i = VStr (issuer c) /\ exists W reqs beh, In (CInit W reqs beh) (calls_in ls) /\ e_state W = k.
Proof.
  intros cl c ls k i PC OK E. apply (comes_session cl c (calls_in ls)).
  apply (comes_lives cl PC c _ OK); [apply incl_refl|]. now apply comes_start.
Qed.
Print Assumptions C71_found_sessions_were_begun.
(** C71: so an authorization response that is accepted after any number of crashes answers a
    request that was begun, before one of them or after, and comes from the issuer. *)
Theorem C71_accepted_response_was_asked_for : forall cl c ls vrf now iss response m c',
  plain_client cl -> Forall call_ok (calls_in ls) -> sdb c = [] ->
  finalize_auth vrf now iss response (snd (lives cl c c ls)) = (Ok m, c') -> is_error_message m = false ->
  iss = issuer c /\ exists W reqs beh, In (CInit W reqs beh) (calls_in ls) /\ dget "state" m = Some (VStr (e_state W)).
Proof.
  intros cl c ls vrf now iss response m c' PC OK E. apply (comes_accepted cl c (calls_in ls)).
  apply (comes_lives cl PC c _ OK); [apply incl_refl|]. now apply comes_start.
Qed.
Print Assumptions C71_accepted_response_was_asked_for.
(** C71: a nonce that leads to a session is one of a request of that session; a logout state
    that leads to one was made by a logout of it. *)
Theorem C71_nonce_leads_to_its_request : forall cl c ls n k,
  plain_client cl -> Forall call_ok (calls_in ls) -> sdb c = [] ->
  get_state_by_nonce (sdb (snd (lives cl c c ls))) n = Ok k ->
  exists W reqs beh, In (CInit W reqs beh) (calls_in ls) /\ e_state W = k /\ uses_nonce c W reqs n.
Proof.
  intros cl c ls n k PC OK E. apply (comes_nonce cl c (calls_in ls)).
  apply (comes_lives cl PC c _ OK); [apply incl_refl|]. now apply comes_start.
Qed.
Print Assumptions C71_nonce_leads_to_its_request.
Theorem C71_logout_state_leads_to_its_logout : forall cl c ls n k,
  plain_client cl -> Forall call_ok (calls_in ls) -> sdb c = [] ->
  get_state_by_logout_state (sdb (snd (lives cl c c ls))) n = Ok k -> exists W uri, In (CLogout W k uri) (calls_in ls).
Proof.
  intros cl c ls n k PC OK E. apply (comes_logout cl c (calls_in ls)).
  apply (comes_lives cl PC c _ OK); [apply incl_refl|]. now apply comes_start.
Qed.
Print Assumptions C71_logout_state_leads_to_its_logout.

(** C71: the threads of other sessions do not matter, wherever the crashes caught them: in
    each life every thread of session [k] comes as far and answers the same as when in all
    lives only the threads of [k] had moved, and what is read about [k] at the end is the
    same. *)
Theorem C71_crashed_calls_of_others_do_not_matter : forall cl k c ls,
  plain_client cl -> rnd32 k -> sdb c = [] -> schedule c k (calls_in ls) ->
  (forall j l, nth_error ls j = Some l -> exists p q,
     nth_error (fst (lives cl c c ls)) j = Some p /\ nth_error (fst (lives cl c c (only k ls))) j = Some q /\
     forall i, about k (fst l i) = true -> same_progress (p i) (q i)) /\
  let d1 := sdb (snd (lives cl c c ls)) in let d2 := sdb (snd (lives cl c c (only k ls))) in
  (forall cc t, get_item d1 cc t k = get_item d2 cc t k) /\ get_iss d1 k = get_iss d2 k /\
  (forall now, get_valid_access_token now d1 k = get_valid_access_token now d2 k) /\
  (forall n, get_state_by_nonce d1 n = Ok k <-> get_state_by_nonce d2 n = Ok k).
Proof.
  intros cl k c ls PC Hk E S.
  destruct (lives_rel k Hk c cl PC (calls_in ls) S ls (incl_refl _) c c (Rc_start k c E) (Inv_start k c (calls_in ls) E)) as [(R & _) P].
  split; [exact P|]. cbv zeta. split; [intros; now apply R_item|]. split; [now apply R_iss|]. split; [|intros; now apply R_nonce].
  intros now. unfold get_valid_access_token. now rewrite !(R_item k _ _ _ _ R).
Qed.
Print Assumptions C71_crashed_calls_of_others_do_not_matter.

(** Two logins are begun; the process dies while the first asks for its tokens and the second
    has just begun to verify; after the restart the first login is completed. *)
Definition crx_lives : list lifetime := [(cx_jobs, repeat 0 5 ++ [1; 1] ++ [2; 2; 2]); (cx_jobs, [1; 1; 1] ++ repeat 2 13)].
Example C71_ex : plain_client lx_client /\ rnd32 ex_state /\ sdb lx_ctx = [] /\ schedule lx_ctx ex_state (calls_in crx_lives) /\
  match fst (lives lx_client lx_ctx lx_ctx crx_lives) with
  | [p; q] => cx_done (p 0) (fun _ => true) = true /\ outcome (p 1) = None /\ outcome (p 2) = None /\ outcome (q 1) = None /\ cx_done (q 2) sx_ok = true
  | _ => False
  end /\
  get_iss (sdb (snd (lives lx_client lx_ctx lx_ctx crx_lives))) ex_state = Ok (VStr "https://op.example").
Proof.
  split; [split; split; reflexivity|]. split; [split; reflexivity|]. split; [reflexivity|]. split.
  { split; [repeat constructor; cbn; auto|]. split; [repeat (constructor; [exact I || apply lx_tame|]); constructor|]. split.
    - intros W reqs beh W' reqs' beh' n H1 H2 Hs U U'.
      assert (X : forall W reqs beh, In (CInit W reqs beh) (calls_in crx_lives) -> CInit W reqs beh = cx_jobs 0 \/ CInit W reqs beh = cx_jobs 1).
      { clear. intros W reqs beh H. unfold calls_in, crx_lives in H. cbn [flat_map fst snd] in H. rewrite app_nil_r, <- map_app in H.
        apply in_map_iff in H. destruct H as (i & E & _). destruct i as [|[|[|[|[|i]]]]]; try discriminate; auto. }
      destruct (X _ _ _ H1) as [Y|Y]; injection Y as -> -> ->; [|discriminate Hs].
      destruct (X _ _ _ H2) as [Z|Z]; injection Z as -> -> ->; [reflexivity|].
      destruct U as [->|U]; destruct U' as [U'|U']; cbn in *; congruence.
    - intros H. unfold calls_in, crx_lives in H. cbn [flat_map fst snd] in H. rewrite app_nil_r, <- map_app in H.
      apply in_map_iff in H. destruct H as (i & E & _). destruct i as [|[|[|[|[|i]]]]]; discriminate. }
  assert (N : forall p, cx_done p (fun _ => true) = false -> outcome p = None) by (intros p; unfold cx_done; now destruct (outcome p)).
  split; [|vm_compute; reflexivity].
  unfold crx_lives. cbn [lives fst snd]. split; [vm_compute; reflexivity|]. split; [apply N; vm_compute; reflexivity|]. split; [apply N; vm_compute; reflexivity|].
  split; [apply N; vm_compute; reflexivity|]. vm_compute; reflexivity.
Qed.
