(** Proofs for T_Whole.v *)
From Verif Require Import Base BaseP Json JsonP Msg M_State S_State P_State M_Ctx M_Codec M_Authz M_ClientAuth
  M_Service M_Token M_Handler S_Service S_Token S_Handler S_Flow S_Trace S_Sched S_Route S_Multi P_Ctx P_Authz P_Codec P_ClientAuth P_Service P_Wire P_Token
  P_Handler P_Flow P_Token2 P_Trace P_Flow2 P_Handler2 P_Route P_Sim P_SimK P_Sched P_Multi S_Traffic S_Honest S_After S_Whole.

(** what a client of a handler has been through: the calls it carried out *)
Lemma client_history h i cl os : dget i h = Some cl ->
  exists cs, dget i (run_hcalls h os) = Some (set_ctx (run_calls cl cs (cl_ctx cl)) cl) /\
    forall c, In c cs -> exists done o, incl done os /\ In o os /\ client_call o = c /\ client_for (run_hcalls h done) o = Ok i.
Proof.
  intros D. induction os as [|o os IH] using rev_ind.
  - exists []. split; [|intros c []]. cbn. now rewrite set_ctx_same.
  - destruct IH as (cs & E & H). rewrite snoc_run, run_at.
    assert (KEEP : forall c, In c cs -> exists done o', incl done (os ++ [o]) /\ In o' (os ++ [o]) /\ client_call o' = c /\ client_for (run_hcalls h done) o' = Ok i).
    { intros c Hc. destruct (H c Hc) as (done & o' & A & B & R). exists done, o'. split; [now apply incl_appl|]. split; [apply in_or_app; now left|exact R]. }
    destruct (client_for (run_hcalls h os) o) as [j|e] eqn:Q; [|exists cs; auto].
    destruct (String.eqb_spec j i) as [Eji|N].
    + rewrite Eji in Q |- *. exists (cs ++ [client_call o]). split.
      * rewrite (at_same _ _ _ _ _ E), run_calls_app. reflexivity.
      * intros c Hc. apply in_app_or in Hc. destruct Hc as [Hc|[<-|[]]]; [auto|].
        exists os, o. split; [apply incl_appl, incl_refl|]. split; [apply in_or_app; right; now left|auto].
    + exists cs. rewrite at_other by assumption. auto.
Qed.
Lemma client_call_ok o : hcall_ok o -> call_ok (client_call o).
Proof. destruct o; exact (fun x => x). Qed.
Lemma world_call o : world_of (client_call o) = hworld o.
Proof. destruct o; reflexivity. Qed.
Lemma fresh_history h i cl os : dget i h = Some cl -> Forall hcall_ok os ->
  exists cs, dget i (run_hcalls h os) = Some (set_ctx (run_calls cl cs (cl_ctx cl)) cl) /\ Forall call_ok cs /\
    forall c, In c cs -> exists done o, incl done os /\ In o os /\ client_call o = c /\ client_for (run_hcalls h done) o = Ok i.
Proof.
  intros D OK. destruct (client_history h i cl os D) as (cs & E & H). exists cs. split; [exact E|]. split; [|exact H].
  rewrite Forall_forall in *. intros c Hc. destruct (H c Hc) as (_ & o & _ & Ho & <- & _). apply client_call_ok. auto.
Qed.
(** calls after calls *)
Lemma run_app h a b : run_hcalls h (a ++ b) = run_hcalls (run_hcalls h a) b.
Proof. apply fold_left_app. Qed.
(** the client after more calls: [x] is its state before *)
Lemma next_history h i cl x a b : dget i (run_hcalls h a) = Some (set_ctx x cl) -> Forall hcall_ok b ->
  exists cs, dget i (run_hcalls h (a ++ b)) = Some (set_ctx (run_calls cl cs x) cl) /\ Forall call_ok cs /\
    forall c, In c cs -> exists done o, incl done (a ++ b) /\ In o b /\ client_call o = c /\ client_for (run_hcalls h done) o = Ok i.
Proof.
  intros D OK. destruct (fresh_history _ _ _ b D OK) as (cs & E & F & H). exists cs. rewrite run_app. split; [|split].
  - assert (G : forall cs y, run_calls (set_ctx x cl) cs y = run_calls cl cs y).
    { clear. induction cs as [|c cs IH]; intros y; [reflexivity|].
      change (run_calls (set_ctx x cl) cs (run_call (set_ctx x cl) c y) = run_calls cl cs (run_call cl c y)). rewrite run_call_ctx. apply IH. }
    rewrite E, G. reflexivity.
  - exact F.
  - intros c Hc. destruct (H c Hc) as (done & o & A & B & C1 & C2). exists (a ++ done), o. rewrite run_app. split; [|auto].
    intros y Hy. apply in_app_or in Hy. apply in_or_app. destruct Hy; auto.
Qed.
