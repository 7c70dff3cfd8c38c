(** Threads that use one client: the moves of the threads of one session, what it means
    that two threads have come equally far, and that calls do not overlap. *)
From Verif Require Import Base Json Msg M_State S_State M_Ctx M_Codec M_Authz M_ClientAuth M_Service M_Token M_Handler S_Trace S_Sched M_Conc.

(** the moves of the threads that work on session [k] *)
Definition moves_of (k : string) (jobs : nat -> call) (sched : list nat) : list nat := filter (fun i => about k (jobs i)) sched.

(** both are done, with answers that the callers see as the same, or none is done *)
Definition same_progress (p q : prog answer) : Prop :=
  match outcome p, outcome q with
  | Some r1, Some r2 => same_outcome r1 r2
  | None, None => True
  | _, _ => False
  end.

(** a thread on its own, from beginning to end *)
Fixpoint run {A} (p : prog A) : M A :=
  match p with
  | Done r => lift r
  | Step T m k => x <- m ;; run (k x)
  end.

(** the threads [is], one after the other: thread [i] moves [n i] times and then the next *)
Definition one_by_one (is : list nat) (n : nat -> nat) : list nat := flat_map (fun i => repeat i (n i)) is.
