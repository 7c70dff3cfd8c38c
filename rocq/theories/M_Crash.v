(** Model of crashes.  The database of a StateInterface may be kept outside the process (the
    attribute [_db] is exported and loaded, state_interface.py 80-86, or is an object that
    stores every assignment); the process may then die between any two assignments and be
    started again with the database as it is.

    Below the session store: the assignments and deletions each operation of
    state_interface.py makes, in their order.  At the level of the handler: a process does
    steps of the calls of its threads (M_Conc.v) and dies after any of them; a step is not cut
    there (a simplification: most steps make at most one operation on the store). *)
From Verif Require Import Base Json Msg M_State S_State M_Ctx M_Codec M_Authz M_ClientAuth M_Service M_Token M_Handler S_Trace S_Sched M_Conc.

(** one assignment to or deletion from the dict *)
Inductive write := WSet (key text : string) | WDel (key : string).
Definition do_write (d : db) (w : write) : db :=
  match w with WSet q t => dset q t d | WDel q => ddel q d end.
Definition do_writes (d : db) (ws : list write) : db := fold_left do_write ws d.

(** state_interface.py 387-388: one deletion after the other, until one fails *)
Fixpoint ref_writes (refs : list (string * val)) (d : db) : list write :=
  match refs with
  | (xtyp, VStr v) :: r =>
      match index_key xtyp v with
      | Ok ik => if dhas ik d then WDel ik :: ref_writes r (ddel ik d) else []
      | Err _ => []
      end
  | _ => []
  end.
(** what the operations write, one item per statement that writes: create_state line 375,
    store_item line 121, store_x2state lines 245 and 256, remove_state lines 384 and 388 *)
Definition writes_of (d : db) (o : op) : list write :=
  match o with
  | Create rnd iss key =>
      let k := created_key rnd key in
      if negb (key =?s "") && (starts_with "__" key && ends_with "__" key) then []
      else match msg_new cState [("iss", VStr iss)] with
           | Ok s => [WSet k (msg_to_json cState s)]
           | Err _ => []
           end
  | Store c m t k =>
      match (match get_state d k with Ok s => Ok s | Err (KeyError _) => Ok [] | Err e => Err e end) with
      | Ok s => match msg_set cState t (VStr (msg_to_json c m)) s with
                | Ok s' => [WSet k (msg_to_json cState s')]
                | Err _ => []
                end
      | Err _ => []
      end
  | Bind x v k =>
      match index_key x v with
      | Err _ => []
      | Ok ik =>
          WSet ik k ::
          match dget (ref_key k) (dset ik k d) with
          | None => [WSet (ref_key k) (json_dumps (VDict [(x, VStr v)]))]
          | Some txt => match json_loads txt with
                        | Some (VDict refs) => [WSet (ref_key k) (json_dumps (VDict (dset x (VStr v) refs)))]
                        | _ => []
                        end
          end
      end
  | Remove k =>
      if dhas k d then
        WDel k :: match dget (ref_key k) (ddel k d) with
                  | Some txt => match json_loads txt with Some (VDict refs) => ref_writes refs (ddel k d) | _ => [] end
                  | None => []
                  end
      else []
  end.
(** the operation is cut after [n] of its writes *)
Definition cut (n : nat) (d : db) (o : op) : db := do_writes d (firstn n (writes_of d o)).

(** a history of operations; each is completed, or cut by a crash *)
Definition event := (op * option nat)%type.
Definition after (d : db) (e : event) : db :=
  match snd e with None => snd (cstep d (fst e)) | Some n => cut n d (fst e) end.
Definition after_all (d : db) (h : list event) : db := fold_left after h d.

(** ** the application *)
(** one life of the process: what its threads are to do, and the order in which they get to
    move before the process dies *)
Definition lifetime := ((nat -> call) * list nat)%type.
(** started again, the client is made from its configuration, and has the database that was
    left behind *)
Definition restarted (c0 c : ctx) : ctx := set_db (sdb c) c0.
Definition live (cl : client) (c : ctx) (l : lifetime) : pool * ctx := play (snd l) (start cl (fst l), c).
(** one life after the other: the threads of each as they were when the process died, and
    what is found at the next start *)
Fixpoint lives (cl : client) (c0 c : ctx) (ls : list lifetime) : list pool * ctx :=
  match ls with
  | [] => ([], c)
  | l :: r => let s := live cl c l in
              let (ps, c') := lives cl c0 (restarted c0 (snd s)) r in (fst s :: ps, c')
  end.
