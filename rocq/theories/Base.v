(** Model vocabulary: strings, ordered dictionaries, Python values,
    exceptions as values.  No proofs in this file.

    Conventions (used by every model file)
    - a Python [str] is the [string] of its UTF-8 bytes;
    - a Python [dict] with string keys is an association list in insertion
      order ([dict A]); assignment replaces in place or appends, as CPython does;
    - a Python exception is a value of type [exn]; a function that may raise
      returns [res A]; a function that may raise and mutates a store returns
      [res A * store] so that the effects made before the exception persist. *)
From Coq Require Export String Ascii List ZArith Bool Lia.
Export ListNotations.
Open Scope string_scope.
Open Scope list_scope.

(** Python exceptions the modelled code raises or lets through
    (builtins; src/oidcrp/exception.py 1-124; oidcmsg.exception). *)
Inductive exn :=
| KeyError (k : string) | ValueError | TypeError | IndexError | AttributeError
| NotImplementedErr
| JSONDecodeError            (* subclass of ValueError *)
| OidcServiceError           (* exception.py 7-13 *)
| ConfigurationError | MissingRequiredAttribute | AuthnFailure | NoMatchingKey
| Unsupported | ParameterError | ParseError | HttpError | WrongContentType
| MissingParameter | ResponseError | InvalidCookieSign | InvalidTag
| MessageException | FormatError | NonFatalException | OtherError.

Inductive res (A : Type) := Ok (a : A) | Err (e : exn).
Arguments Ok {A} _. Arguments Err {A} _.

Definition rbind {A B} (m : res A) (f : A -> res B) : res B :=
  match m with Ok a => f a | Err e => Err e end.
Notation "'let!' x := m 'in' k" := (rbind m (fun x => k))
  (at level 200, x pattern, m at level 100, k at level 200, right associativity).

Definition is_key_error (e : exn) : bool := match e with KeyError _ => true | _ => false end.

(** Stateful functions: result and final store (no rollback on exceptions). *)
Definition sbind {S A B} (m : res A * S) (f : A -> S -> res B * S) : res B * S :=
  match m with (Ok a, s) => f a s | (Err e, s) => (Err e, s) end.
Notation "'do!' ( x , s ) := m 'in' k" := (sbind m (fun x s => k))
  (at level 200, x pattern, s name, m at level 100, k at level 200, right associativity).

(** ** Strings *)
Definition eqs := String.eqb.
Arguments String.eqb !s1 !s2 : simpl nomatch.
Infix "=?s" := String.eqb (at level 70).

Fixpoint la (s : string) : list ascii :=
  match s with EmptyString => [] | String c r => c :: la r end.
Fixpoint sl (l : list ascii) : string :=
  match l with [] => EmptyString | c :: r => String c (sl r) end.

(** [s.startswith(p)] *)
Fixpoint starts_with (p s : string) : bool :=
  match p, s with
  | EmptyString, _ => true
  | String a p', String b s' => Ascii.eqb a b && starts_with p' s'
  | _, _ => false
  end.
(** [s[len(p):]] when [s.startswith(p)] *)
Fixpoint drop (n : nat) (s : string) : string :=
  match n, s with O, _ => s | S n', String _ r => drop n' r | S _, EmptyString => EmptyString end.
Fixpoint take (n : nat) (s : string) : string :=
  match n, s with S n', String a r => String a (take n' r) | _, _ => EmptyString end.
Definition srev (s : string) : string := sl (rev (la s)).
(** [s.endswith(p)] *)
Definition ends_with (p s : string) : bool := starts_with (srev p) (srev s).
(** [sub in s] for strings *)
Fixpoint contains (sub s : string) : bool :=
  starts_with sub s || match s with EmptyString => false | String _ r => contains sub r end.
Fixpoint char_in (c : ascii) (s : string) : bool :=
  match s with EmptyString => false | String d r => Ascii.eqb c d || char_in c r end.
Fixpoint all_chars (f : ascii -> bool) (s : string) : bool :=
  match s with EmptyString => true | String c r => f c && all_chars f r end.

(** [s.split(c)] for a one-character separator: always at least one piece. *)
Fixpoint split_on (c : ascii) (s : string) : list string :=
  match s with
  | EmptyString => [EmptyString]
  | String a r =>
      if Ascii.eqb a c then EmptyString :: split_on c r
      else match split_on c r with
           | [] => [String a EmptyString]
           | w :: ws => String a w :: ws
           end
  end.
(** [sep.join(ws)] *)
Fixpoint join (sep : string) (ws : list string) : string :=
  match ws with
  | [] => EmptyString
  | [w] => w
  | w :: r => w ++ sep ++ join sep r
  end%string.
(** [s.split(c, 1)]: first occurrence only *)
Fixpoint split1 (c : ascii) (s : string) : option (string * string) :=
  match s with
  | EmptyString => None
  | String a r =>
      if Ascii.eqb a c then Some (EmptyString, r)
      else match split1 c r with Some (x, y) => Some (String a x, y) | None => None end
  end.
Definition mem_str (x : string) (l : list string) : bool := existsb (String.eqb x) l.

Definition sp : ascii := " "%char.
Definition is_digit (c : ascii) : bool :=
  let n := nat_of_ascii c in Nat.leb 48 n && Nat.leb n 57.
Definition is_upper (c : ascii) : bool :=
  let n := nat_of_ascii c in Nat.leb 65 n && Nat.leb n 90.
Definition is_lower (c : ascii) : bool :=
  let n := nat_of_ascii c in Nat.leb 97 n && Nat.leb n 122.
Definition is_alnum (c : ascii) : bool := is_digit c || is_upper c || is_lower c.
Definition lower_char (c : ascii) : ascii :=
  if is_upper c then ascii_of_nat (nat_of_ascii c + 32) else c.
Definition upper_char (c : ascii) : ascii :=
  if is_lower c then ascii_of_nat (nat_of_ascii c - 32) else c.
Fixpoint map_str (f : ascii -> ascii) (s : string) : string :=
  match s with EmptyString => EmptyString | String c r => String (f c) (map_str f r) end.
Definition lower := map_str lower_char.
Definition upper := map_str upper_char.

(** ** Ordered dictionaries *)
Definition dict (A : Type) := list (string * A).

Fixpoint dget {A} (k : string) (d : dict A) : option A :=
  match d with
  | [] => None
  | (k', v) :: r => if k' =?s k then Some v else dget k r
  end.
Fixpoint dset {A} (k : string) (v : A) (d : dict A) : dict A :=
  match d with
  | [] => [(k, v)]
  | (k', v') :: r => if k' =?s k then (k', v) :: r else (k', v') :: dset k v r
  end.
Fixpoint ddel {A} (k : string) (d : dict A) : dict A :=
  match d with
  | [] => []
  | (k', v') :: r => if k' =?s k then ddel k r else (k', v') :: ddel k r
  end.
Definition dhas {A} (k : string) (d : dict A) : bool :=
  match dget k d with Some _ => true | None => false end.
(** [d.update(e)] *)
Definition dupdate {A} (d e : dict A) : dict A :=
  fold_left (fun acc kv => dset (fst kv) (snd kv) acc) e d.
Definition dkeys {A} (d : dict A) : list string := map fst d.
(** [d.setdefault(k, v)] on the dictionary *)
Definition dsetdefault {A} (k : string) (v : A) (d : dict A) : dict A :=
  if dhas k d then d else dset k v d.

(** ** Python values that can sit in a message *)
Inductive val :=
| VNone
| VBool (b : bool)
| VInt (z : Z)
| VStr (s : string)
| VList (l : list val)
| VDict (d : list (string * val)).

(** [bool(v)] *)
Definition truthy (v : val) : bool :=
  match v with
  | VNone => false
  | VBool b => b
  | VInt z => negb (Z.eqb z 0)
  | VStr s => negb (s =?s "")
  | VList l => match l with [] => false | _ => true end
  | VDict d => match d with [] => false | _ => true end
  end.
Definition otruthy (o : option val) : bool :=
  match o with Some v => truthy v | None => false end.

(** [v1 == v2] *)
Fixpoint val_eqb (a b : val) {struct a} : bool :=
  match a, b with
  | VNone, VNone => true
  | VBool x, VBool y => Bool.eqb x y
  | VInt x, VInt y => Z.eqb x y
  | VStr x, VStr y => x =?s y
  | VList x, VList y =>
      (fix go (l m : list val) : bool :=
         match l, m with
         | [], [] => true
         | u :: l', w :: m' => val_eqb u w && go l' m'
         | _, _ => false
         end) x y
  | VDict x, VDict y =>
      (fix go (l m : list (string * val)) : bool :=
         match l, m with
         | [], [] => true
         | (k, u) :: l', (k', w) :: m' => (k =?s k') && val_eqb u w && go l' m'
         | _, _ => false
         end) x y
  | _, _ => false
  end.

(** [d[k]] raising KeyError *)
Definition dict_get {A} (k : string) (d : dict A) : res A :=
  match dget k d with Some v => Ok v | None => Err (KeyError k) end.

Definition as_str (v : val) : option string :=
  match v with VStr s => Some s | _ => None end.
Definition str_of (o : option val) : string :=
  match o with Some (VStr s) => s | _ => "" end.
Definition strs (l : list string) : val := VList (map VStr l).
