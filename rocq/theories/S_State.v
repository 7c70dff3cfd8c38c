(** Specification of the session store: an abstract machine a reader can check
    in minutes.  It knows nothing about JSON text or key patterns. *)
From Verif Require Import Base Msg M_State.

(** the four kinds of index *)
Definition kinds : list string := ["nonce"; "logout state"; "session id"; "subject id"].

Inductive op :=
| Create (rnd iss key : string)              (* create_state(iss, key); rnd is used when key = '' *)
| Store (c : mcls) (m : msg) (t k : string)  (* store_item(m, t, k) *)
| Bind (x v k : string)                      (* store_<x>2state(v, k) *)
| Remove (k : string).                       (* remove_state(k) *)

Definition created_key (rnd key : string) : string := if key =?s "" then rnd else key.

(** what a session is: its issuer and its items by type *)
Record asess := { a_iss : option string; a_items : string -> option (dict val) }.

Record astate := {
  A_sess : string -> option asess;             (* sessions by key *)
  A_refs : string -> dict string;              (* per session: kind -> last value bound *)
  A_idx  : string -> string -> option string   (* kind, value -> session key *)
}.

Inductive out := ODone | OKey (k : string) | OKeyError | OTypeError.

Definition upd {B} (f : string -> B) (k : string) (b : B) : string -> B :=
  fun k' => if k =?s k' then b else f k'.
Definition upd2 {B} (f : string -> string -> B) (x v : string) (b : B) :=
  fun x' v' => if (x =?s x') && (v =?s v') then b else f x' v'.

Definition empty_sess : asess := {| a_iss := None; a_items := fun _ => None |}.

(** drop index entries one by one, stopping at the first one that is missing *)
Fixpoint drop_refs (refs : dict string) (f : string -> string -> option string)
  : out * (string -> string -> option string) :=
  match refs with
  | [] => (ODone, f)
  | (x, v) :: r => match f x v with
                   | None => (OKeyError, f)
                   | Some _ => drop_refs r (upd2 f x v None)
                   end
  end.

Definition astep (a : astate) (o : op) : out * astate :=
  match o with
  | Create rnd iss key =>
      let k := created_key rnd key in
      (OKey k,
       {| A_sess := upd (A_sess a) k (Some {| a_iss := if iss =?s "" then None else Some iss;
                                              a_items := fun _ => None |});
          A_refs := A_refs a; A_idx := A_idx a |})
  | Store c m t k =>
      let s := match A_sess a k with Some s => s | None => empty_sess end in
      (ODone,
       {| A_sess := upd (A_sess a) k (Some {| a_iss := a_iss s;
                                              a_items := upd (a_items s) t (Some (msg_to_dict c m)) |});
          A_refs := A_refs a; A_idx := A_idx a |})
  | Bind x v k =>
      (ODone,
       {| A_sess := A_sess a;
          A_refs := upd (A_refs a) k (dset x v (A_refs a k));
          A_idx := upd2 (A_idx a) x v (Some k) |})
  | Remove k =>
      match A_sess a k with
      | None => (OKeyError, a)
      | Some _ =>
          let s' := upd (A_sess a) k None in
          match A_refs a k with
          | [] => (OTypeError, {| A_sess := s'; A_refs := A_refs a; A_idx := A_idx a |})
          | refs => let (o, i) := drop_refs refs (A_idx a) in
                    (o, {| A_sess := s'; A_refs := A_refs a; A_idx := i |})
          end
      end
  end.

Definition ainit : astate :=
  {| A_sess := fun _ => None; A_refs := fun _ => []; A_idx := fun _ _ => None |}.

Fixpoint arun (a : astate) (ops : list op) : list out * astate :=
  match ops with
  | [] => ([], a)
  | o :: r => let (x, a1) := astep a o in let (xs, a2) := arun a1 r in (x :: xs, a2)
  end.

(** ** the concrete machine *)
Definition cstep (d : db) (o : op) : res string * db :=
  match o with
  | Create rnd iss key => create_state rnd iss key d
  | Store c m t k => let (r, d') := store_item (IMsg c m) t k d in
                     (match r with Ok _ => Ok "" | Err e => Err e end, d')
  | Bind x v k => let (r, d') := store_x2state v k x d in
                  (match r with Ok _ => Ok "" | Err e => Err e end, d')
  | Remove k => let (r, d') := remove_state k d in
                (match r with Ok _ => Ok "" | Err e => Err e end, d')
  end.
Fixpoint crun (d : db) (ops : list op) : list (res string) * db :=
  match ops with
  | [] => ([], d)
  | o :: r => let (x, d1) := cstep d o in let (xs, d2) := crun d1 r in (x :: xs, d2)
  end.

(** agreement of results: a created key is returned; exceptions by class *)
Definition out_agrees (o : op) (r : res string) (x : out) : Prop :=
  match o, x with
  | Create _ _ _, OKey k => r = Ok k
  | Create _ _ _, _ => False
  | _, ODone => r = Ok ""
  | _, OKeyError => exists k, r = Err (KeyError k)
  | _, OTypeError => r = Err TypeError
  | _, OKey _ => False
  end.

(** ** key patterns *)
Definition wrap (x : string) : string :=
  match key_pattern x with Some w => w | None => "" end.
Definition idx (x v : string) : string := fmt (wrap x) v.

(** A set of session keys that cannot be confused with index or reference entries. *)
Definition key_family (K : string -> Prop) : Prop :=
  (forall k, K k -> k <> "") /\
  (forall k x v, K k -> In x kinds -> k <> idx x v) /\
  (forall k k', K k -> K k' -> k <> ref_key k') /\
  (forall k, K k -> starts_with "__" k && ends_with "__" k = false).

(** keys as the library generates them: rndstr(32), util.py *)
Definition rnd32 (k : string) : Prop := String.length k = 32 /\ all_chars is_alnum k = true.
(** caller-chosen keys that have neither the index nor the reference shape *)
Definition plain_key (k : string) : bool :=
  negb (k =?s "") &&
  negb (existsb (fun w => starts_with w k && ends_with w k) ["__"; "::"; ".."; "=="]) &&
  negb (starts_with "ref" k && ends_with "ref" k).
(** operations on sessions whose keys are in the family *)
Definition op_ok (K : string -> Prop) (o : op) : Prop :=
  match o with
  | Create rnd iss key => K (created_key rnd key)
  | Store c m t k => K k /\ t <> "iss"
  | Bind x v k => K k /\ In x kinds
  | Remove k => K k
  end.

(** ** Direct readings of a history (newest operation first) *)

(** the item most recently stored under (k, t) since k was created or removed *)
Fixpoint latest_item (h : list op) (k t : string) : option (dict val) :=
  match h with
  | [] => None
  | Store c m t' k' :: r => if (k' =?s k) && (t' =?s t) then Some (msg_to_dict c m) else latest_item r k t
  | Create rnd _ key :: r => if created_key rnd key =?s k then None else latest_item r k t
  | Remove k' :: r => if k' =?s k then None else latest_item r k t
  | Bind _ _ _ :: r => latest_item r k t
  end.
(** the issuer given when k was created, if k was not removed since *)
Fixpoint latest_iss (h : list op) (k : string) : option string :=
  match h with
  | [] => None
  | Create rnd iss key :: r => if created_key rnd key =?s k
                               then (if iss =?s "" then None else Some iss) else latest_iss r k
  | Remove k' :: r => if k' =?s k then None else latest_iss r k
  | _ :: r => latest_iss r k
  end.
(** the session to which value v of kind x was bound last *)
Fixpoint latest_bind (h : list op) (x v : string) : option string :=
  match h with
  | [] => None
  | Bind x' v' k :: r => if (x' =?s x) && (v' =?s v) then Some k else latest_bind r x v
  | _ :: r => latest_bind r x v
  end.
Definition is_remove (o : op) : bool := match o with Remove _ => true | _ => false end.

(** the value of parameter p an item offers: verified form first unless the
    original is wanted *)
Definition offer (orig : bool) (it : msg) (p : string) : option val :=
  if orig then dget p it
  else match dget (verified p) it with Some v => Some v | None => dget p it end.
(** the last of several items that offers p *)
Fixpoint last_offer (orig : bool) (its : list msg) (p : string) : option val :=
  match its with
  | [] => None
  | it :: r => match last_offer orig r p with Some v => Some v | None => offer orig it p end
  end.

(** the items of a session that are present, in the order of the type list *)
Fixpoint present (st : msg) (typs : list string) : list msg :=
  match typs with
  | [] => []
  | t :: r => match dget t st with
              | Some (VDict i) => match msg_new cMessage i with Ok m => m :: present st r | Err _ => present st r end
              | _ => present st r
              end
  end.
(** values bound to k are bound to k only and once per kind *)
Definition exclusive (k : string) (ops : list op) : Prop :=
  (forall x v v', In (Bind x v k) ops -> In (Bind x v' k) ops -> v = v') /\
  (forall x v k', In (Bind x v k) ops -> In (Bind x v k') ops -> k' = k) /\
  ~ In (Remove k) ops.
