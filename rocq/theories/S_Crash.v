(** What is to be seen of a history in which the process dies now and then. *)
From Verif Require Import Base Json Msg M_State S_State M_Ctx M_Codec M_Authz M_ClientAuth M_Service M_Token M_Handler S_Token S_Trace S_Sched M_Conc S_Conc M_Crash.

(** a crash before the first write leaves nothing of the operation *)
Definition happened (e : event) : bool := match snd e with Some 0 => false | _ => true end.
Definition effective (h : list event) : list op := map fst (filter happened h).

(** results a caller sees as the same *)
Definition same_result {A} (r1 r2 : res A) : Prop := r1 = r2 \/ exists e1 e2, r1 = Err (KeyError e1) /\ r2 = Err (KeyError e2).
(** whatever is done with the two databases later, they give the same results, and the
    same is read from them *)
Definition indistinguishable (K : string -> Prop) (d1 d2 : db) : Prop :=
  forall ops, Forall (op_ok K) ops ->
    Forall2 same_result (fst (crun d1 ops)) (fst (crun d2 ops)) /\
    let e1 := snd (crun d1 ops) in let e2 := snd (crun d2 ops) in
    (forall k c t, K k -> t <> "iss" -> get_item e1 c t k = get_item e2 c t k) /\
    (forall k, K k -> same_result (get_iss e1 k) (get_iss e2 k)) /\
    (forall x v, In x kinds -> get_state_by_x e1 v x = get_state_by_x e2 v x).

(** all the calls of all lives whose threads got to move *)
Definition calls_in (ls : list lifetime) : list call := flat_map (fun l => map (fst l) (snd l)) ls.
(** the same lives with the moves of session [k] only *)
Definition only (k : string) (ls : list lifetime) : list lifetime := map (fun l => (fst l, moves_of k (fst l) (snd l))) ls.
