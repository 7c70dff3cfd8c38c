(** Model of how a Cookie header is read: cookie.py 258-272 hands the text to
    http.cookies.SimpleCookie, whose parser (_CookiePattern and __parse_string of
    Lib/http/cookies.py, Python 3.6 to 3.11) is modelled here.  Text is a byte string. *)
From Verif Require Import Base Json Msg M_Codec M_Cookie M_CookieHdr.

(** \s and \w with re.ASCII *)
Definition ws (c : ascii) : bool := let n := nat_of_ascii c in (Nat.leb 9 n && Nat.leb n 13) || Nat.eqb n 32.
Definition wordc (c : ascii) : bool := is_alnum c || Ascii.eqb c "_"%char.
(** _LegalKeyChars and _LegalValueChars *)
Definition key_char (c : ascii) : bool := wordc c || char_in c "!#%&'~_`><@,:/$*+-.^|)(?}{=".
Definition value_char (c : ascii) : bool := key_char c || char_in c "[]".

Fixpoint skip_ws (s : string) : string :=
  match s with String c r => if ws c then skip_ws r else s | EmptyString => "" end.
(** the longest run of characters, and what follows it *)
Fixpoint span (f : ascii -> bool) (s : string) : string * string :=
  match s with
  | String c r => if f c then let (a, b) := span f r in (String c a, b) else ("", s)
  | EmptyString => ("", "")
  end.
(** exactly [n] characters *)
Fixpoint exactly (n : nat) (f : ascii -> bool) (s : string) : option (string * string) :=
  match n, s with
  | O, _ => Some ("", s)
  | S n', String c r => if f c then match exactly n' f r with Some (a, b) => Some (String c a, b) | None => None end else None
  | S _, EmptyString => None
  end.
Definition first_some {A} (l : list (option A)) : option A :=
  fold_right (fun x y => match x with Some _ => x | None => y end) None l.
Definition and_then (m : option (string * string)) (k : string -> option (string * string)) : option (string * string) :=
  match m with
  | Some (a, s) => match k s with Some (b, t) => Some ((a ++ b)%string, t) | None => None end
  | None => None
  end.
(** a doublequoted text, after the opening quote: characters other than quote and backslash,
    and pairs of a backslash and any character but a newline, up to the closing quote *)
Fixpoint quoted_rest (s : string) : option (string * string) :=
  match s with
  | EmptyString => None
  | String c r =>
      if Ascii.eqb c dquote then Some (String dquote "", r)
      else if Ascii.eqb c bslash then
        match r with
        | String d r' =>
            if Ascii.eqb d newline then None
            else match quoted_rest r' with Some (a, b) => Some (String c (String d a), b) | None => None end
        | EmptyString => None
        end
      else match quoted_rest r with Some (a, b) => Some (String c a, b) | None => None end
  end.
Definition quoted_value (s : string) : option (string * string) :=
  match s with
  | String c r => if Ascii.eqb c dquote then match quoted_rest r with Some (a, b) => Some (String c a, b) | None => None end else None
  | EmptyString => None
  end.
(** \w{3},\s[\w\d\s-]{9,11}\s[\d:]{8}\sGMT *)
Definition date_value (s : string) : option (string * string) :=
  let one f := exactly 1 f in
  and_then (exactly 3 wordc s) (fun s => and_then (one (Ascii.eqb ",") s) (fun s => and_then (one ws s) (fun s =>
  first_some (map (fun n =>
    and_then (exactly n (fun c => wordc c || ws c || Ascii.eqb c "-") s) (fun s => and_then (one ws s) (fun s =>
    and_then (exactly 8 (fun c => is_digit c || Ascii.eqb c ":") s) (fun s => and_then (one ws s) (fun s =>
    and_then (one (Ascii.eqb "G") s) (fun s => and_then (one (Ascii.eqb "M") s) (fun s => one (Ascii.eqb "T") s)))))))
    [11; 10; 9])))).
(** \s*(\s+|;|$)  : what follows *)
Definition ending (s : string) : option string :=
  let r := skip_ws s in
  match r with
  | EmptyString => Some ""
  | String c r' => if Ascii.eqb c ";" then Some r' else if r =?s s then None else Some r
  end.
Definition with_ending (m : option (string * string)) : option (string * string) :=
  match m with
  | Some (v, s) => match ending s with Some t => Some (v, t) | None => None end
  | None => None
  end.
(** the alternatives for a value, the first one that is properly ended *)
Definition value_at (s : string) : option (string * string) :=
  first_some [with_ending (quoted_value s); with_ending (date_value s); with_ending (Some (span value_char s))].
(** (\s*=\s*(val))?\s*(\s+|;|$).  When the value after the spaces is not properly ended the
    matcher gives back a space: the value is then empty. *)
Definition after_key (s : string) : option (option string * string) :=
  let plain := match ending s with Some t => Some (None, t) | None => None end in
  match skip_ws s with
  | String c t =>
      if Ascii.eqb c "=" then
        match value_at (skip_ws t) with
        | Some (v, u) => Some (Some v, u)
        | None => if skip_ws t =?s t then plain else Some (Some "", skip_ws t)
        end
      else plain
  | EmptyString => plain
  end.
(** the key is the shortest one for which the rest matches *)
Fixpoint match_key (s : string) : option (string * option string * string) :=
  match s with
  | EmptyString => None
  | String c r =>
      if key_char c then
        match after_key r with
        | Some (v, t) => Some (String c "", v, t)
        | None => match match_key r with Some (k, v, t) => Some (String c k, v, t) | None => None end
        end
      else None
  end.
Definition match_cookie (s : string) : option (string * option string * string) := match_key (skip_ws s).

(** parsed items: attributes of the last cookie, and cookies *)
Inductive ck_item := CkAttr (key : string) | CkPair (key value : string).
Definition ck_flags : list string := ["secure"; "httponly"].
(** what is done with one match; None: the whole text is discarded.  The values of attributes
    are left out. *)
Definition take_item (key : string) (value : option string) (seen : bool) : option (list ck_item * bool) :=
  if starts_with "$" key then Some (if seen then [CkAttr (drop 1 key)] else [], seen)
  else if mem_str (lower key) ck_reserved then
    if seen then
      match value with
      | None => if mem_str (lower key) ck_flags then Some ([CkAttr key], true) else None
      | Some _ => Some ([CkAttr key], true)
      end
    else None
  else match value with Some v => Some ([CkPair key v], true) | None => None end.
(** the loop; [fuel] is the length of the text, each round takes at least one character *)
Fixpoint parse_items (fuel : nat) (s : string) (seen : bool) : option (list ck_item) :=
  match fuel with
  | O => Some []
  | S fuel' =>
      match match_cookie s with
      | None => Some []
      | Some (key, value, rest) =>
          match take_item key value seen with
          | None => None
          | Some (l, seen') => match parse_items fuel' rest seen' with Some l' => Some (l ++ l') | None => None end
          end
      end
  end.
(** applying them; CookieError: an unknown attribute or an illegal name *)
Fixpoint apply_items (l : list ck_item) (d : dict string) : res (dict string) :=
  match l with
  | [] => Ok d
  | CkAttr k :: r => if mem_str (lower k) ck_reserved then apply_items r d else Err OtherError
  | CkPair k v :: r => if all_chars ck_legal k && negb (k =?s "") then apply_items r (dset k v d) else Err OtherError
  end.
(** SimpleCookie(text): the values as they stand in the header, by name *)
Definition load_cookies (s : string) : res (dict string) :=
  match parse_items (String.length s) s false with Some l => apply_items l [] | None => Ok [] end.

(** cookie.py 369-393 on a header *)
Definition read_cookie (E : cookie_env) (S : cookie_srv) (header name : string) : res (option (string * string * string)) :=
  if header =?s "" then Ok None
  else let! kaka := load_cookies header in get_cookie_value E S kaka name.
