(** Property theorem C70: a login at a handler with many providers goes as if its provider
    were the only one.  Proofs in P_Multi.v, specification in S_Multi.v. *)
From Verif Require Import Base BaseP Json Msg M_State S_State M_Ctx M_Codec M_Authz M_ClientAuth M_Service M_Token M_Handler M_Verify
  S_Token S_Handler S_Trace S_Sched S_Route S_Multi P_State P_Ctx P_Trace P_Sim P_Sched P_Route P_Multi Ex T_Verify T_Logout T_Handler T_Sched.

(** C70: whatever the handler does for other providers and for other logins at the same
    provider, in any order between the calls of login [k] at provider [i], the calls of that
    login answer as they would in a handler with the one provider and the one login. *)
Theorem C70_as_if_the_only_provider : forall h i cl k os,
  fresh_handler h -> dget i h = Some cl -> rnd32 k -> hschedule (cl_ctx cl) i k os ->
  Forall2 same_outcome (hanswers i k os h) (hanswers i k (hcalls_of i k os) [(i, cl)]).
Proof. intros h i cl k os F D HK S. apply (multi h i k cl os F D HK S). Qed.
Print Assumptions C70_as_if_the_only_provider.

(** C70: and what the handler tells about the login afterwards is the same: which provider it
    is at, whether the user is logged in, and the access token. *)
Theorem C70_what_is_told_is_the_same : forall h i cl k os,
  fresh_handler h -> dget i h = Some cl -> rnd32 k -> hschedule (cl_ctx cl) i k os ->
  let h1 := run_hcalls h os in let h2 := run_hcalls [(i, cl)] (hcalls_of i k os) in
  client_of_session h1 k = client_of_session h2 k /\
  (forall W, fst (h_active W k h1) = fst (h_active W k h2)) /\
  (forall W, fst (h_valid_token W k h1) = fst (h_valid_token W k h2)) /\
  exists cl1 cl2, dget i h1 = Some cl1 /\ dget i h2 = Some cl2 /\
    (forall cc t, get_item (sdb (cl_ctx cl1)) cc t k = get_item (sdb (cl_ctx cl2)) cc t k) /\
    (forall n, get_state_by_nonce (sdb (cl_ctx cl1)) n = Ok k <-> get_state_by_nonce (sdb (cl_ctx cl2)) n = Ok k).
Proof.
  intros h i cl k os F D HK S. cbv zeta. destruct (multi h i k cl os F D HK S) as (_ & tr & B).
  split; [exact (same_route h i k cl os F D HK S os (hcalls_of i k os) tr (incl_refl _) (hcalls_of_incl i k os) B)|].
  split; [|split].
  - intros W. unfold h_active. apply (asked h i k cl os F D HK S); [|reflexivity]. intros x1 x2 (R & _). cbn [read_db fst].
    unfold has_active_authentication. now rewrite (R_mult k _ _ _ _ _ _ R).
  - intros W. unfold h_valid_token. apply (asked h i k cl os F D HK S); [|reflexivity]. intros x1 x2 (R & _). cbn [read_db fst].
    unfold get_valid_access_token. now rewrite !(R_item k _ _ _ _ R).
  - pose proof (both_rel h i k cl os F D HK S _ _ _ B) as (R & _). destruct B as (_ & D1 & D2). do 2 eexists. split; [exact D1|]. split; [exact D2|].
    cbn [cl_ctx set_ctx]. split; [intros; now apply (R_item k)|intros; now apply (R_nonce k)].
Qed.
Print Assumptions C70_what_is_told_is_the_same.

(** C70: a call changes no client but the one that carries it out, and none at all when the
    session key leads to no client; no client appears or goes away. *)
Theorem C70_other_clients_untouched : forall h o,
  (forall j, client_for h o <> Ok j -> dget j (run_hcall h o) = dget j h) /\ dkeys (run_hcall h o) = dkeys h /\
  (forall e, client_for h o = Err e -> run_hcall h o = h /\ hanswer h o = Err e).
Proof.
  intros h o. split; [apply run_frame|]. split; [apply run_keys|]. intros e E. rewrite run_at, answer_at, E. auto.
Qed.
Print Assumptions C70_other_clients_untouched.

(** C70: the answer of a call and what it does depend on that one client only. *)
Theorem C70_only_the_client_matters : forall h1 h2 o i,
  client_for h1 o = Ok i -> client_for h2 o = Ok i -> dget i h1 = dget i h2 ->
  hanswer h1 o = hanswer h2 o /\ dget i (run_hcall h1 o) = dget i (run_hcall h2 o).
Proof.
  intros h1 h2 o i E1 E2 D. rewrite !answer_at, !run_at, E1, E2, <- D. split; [reflexivity|].
  unfold at_client. rewrite <- D. destruct (dget i h1) eqn:Q; [now rewrite !dget_dset_eq|congruence].
Qed.
Print Assumptions C70_only_the_client_matters.

(** ** Three logins at two providers *)
Definition mx_op := "https://op.example".
Definition mx_op2 := "https://op2.example".
Definition mx_k3 := "zyxwvutsrqponmlkjihgfedcba543210".
Definition mx_handler : handler := [(mx_op2, ex_client2); (mx_op, lx_client)].
Definition mx_calls : list hcall :=
  [HInit (lx_env ex_state "a") mx_op [] None;
   HInit (lx_env lx_k2 "b") mx_op2 [] None;
   HInit (lx_env mx_k3 "c") mx_op [] None;
   HFinalize (lx_env lx_k2 "b") mx_op2 (sx_resp lx_k2) false;
   HFinalize (lx_env mx_k3 "c") mx_op (sx_resp mx_k3) false;
   HLogout (lx_env lx_k2 "b") lx_k2 "";
   HClear lx_k2;
   HFinalize (lx_env ex_state "a") mx_op (sx_resp ex_state) false;
   HRefresh (lx_env mx_k3 "c") mx_k3 "";
   HUserInfo (lx_env ex_state "a") ex_state ""].
Lemma mx_fresh : fresh_handler mx_handler.
Proof.
  split; [repeat constructor; cbn; intuition discriminate|]. intros i cl H. unfold mx_handler in H. cbn [dget] in H.
  destruct (String.eqb_spec mx_op2 i) as [<-|]; [injection H as <-; repeat split; discriminate|].
  destruct (String.eqb_spec mx_op i) as [<-|]; [injection H as <-; repeat split; discriminate|discriminate].
Qed.
Ltac mx_in H := repeat (destruct H as [H|H]; [try discriminate H|]); try contradiction H.
Example C70_ex : fresh_handler mx_handler /\ dget mx_op mx_handler = Some lx_client /\ rnd32 ex_state /\
  hschedule (cl_ctx lx_client) mx_op ex_state mx_calls /\ List.length (hcalls_of mx_op ex_state mx_calls) = 3 /\
  (exists u, hd_error (hanswers mx_op ex_state mx_calls mx_handler) = Some (Ok (AUrl u ex_state))) /\
  sx_ok (nth 1 (hanswers mx_op ex_state mx_calls mx_handler) (Err OtherError)) = true /\
  fst (h_active (lx_env ex_state "a") ex_state (run_hcalls mx_handler mx_calls)) = Ok true.
Proof.
  split; [exact mx_fresh|]. split; [reflexivity|]. split; [split; reflexivity|]. split; [|split; [reflexivity|]].
  - split; [unfold mx_calls; repeat (apply Forall_cons; [first [split; reflexivity | exact Logic.I]|]); constructor|].
    split; [|split; [|split]].
    + intros o W I E. unfold mx_calls in I. repeat (destruct I as [<-|I]; [first [discriminate E | injection E as <-; apply lx_tame]|]); contradiction.
    + intros W iss reqs beh I E. mx_in I; injection I as <- <- _ _; try reflexivity; vm_compute in E; discriminate.
    + intros W reqs beh W' reqs' beh' n I I' E U U'.
      assert (W = lx_env ex_state "a" /\ reqs = []) as [-> ->].
      { mx_in I; injection I as <- <- <-; [auto|vm_compute in E; discriminate]. }
      assert ((W' = lx_env ex_state "a" \/ W' = lx_env mx_k3 "c") /\ reqs' = []) as [[-> | ->] ->].
      { mx_in I'; injection I' as <- <- <-; auto. }
      * reflexivity.
      * destruct U as [->|U]; destruct U' as [U'|U']; cbn in *; congruence.
    + intros I. mx_in I.
  - assert (E1 : (match hd_error (hanswers mx_op ex_state mx_calls mx_handler) with Some (Ok (AUrl _ s)) => s =?s ex_state | _ => false end) = true) by (vm_compute; reflexivity).
    split.
    + destruct (hd_error (hanswers mx_op ex_state mx_calls mx_handler)) as [[[u s| | | | |]|]|]; try discriminate. apply String.eqb_eq in E1. subst s. eauto.
    + split; vm_compute; reflexivity.
Qed.

(** C70 needs the session keys to be drawn for one provider only: when the same key is drawn
    for two, the calls with the key go to the one that comes first in the handler. *)
Definition mx_same : list hcall := [HInit (lx_env ex_state "a") mx_op [] None; HInit (lx_env ex_state "b") mx_op2 [] None].
Theorem C70_shared_key_refuted : exists h i cl k os,
  fresh_handler h /\ dget i h = Some cl /\ rnd32 k /\ Forall hcall_ok os /\ ~ In (HClear k) os /\
  client_of_session (run_hcalls [(i, cl)] (hcalls_of i k os)) k = Ok i /\
  exists j, j <> i /\ client_of_session (run_hcalls h os) k = Ok j.
Proof.
  exists mx_handler, mx_op, lx_client, ex_state, mx_same. split; [exact mx_fresh|]. split; [reflexivity|]. split; [split; reflexivity|].
  split; [unfold mx_same; repeat (apply Forall_cons; [split; reflexivity|]); constructor|]. split; [intros I; mx_in I|].
  split; [vm_compute; reflexivity|]. exists mx_op2. split; [discriminate|]. vm_compute. reflexivity.
Qed.
Print Assumptions C70_shared_key_refuted.
