(** Model of [json.dumps] / [json.loads] (Python standard library), as used by
    src/oidcrp/state_interface.py 243-256, 384 and, through
    oidcmsg.Message.to_json / from_json, by every store of session data.

    Simplifications: no floating point numbers; bytes >= 128 (non-ASCII text) are
    emitted as they are instead of as \uXXXX escapes (the text differs, the
    decoded value does not); a JSON object with a repeated member is decoded
    with the repetition kept (Python keeps the last; objects printed from a
    dict never repeat a member). *)
From Verif Require Import Base.
From Coq Require Import DecimalString DecimalZ.

Definition ch (n : nat) : ascii := ascii_of_nat n.
Definition cquote : ascii := """"%char.
Definition cback : ascii := "\"%char.

Definition hex_digit (n : nat) : ascii :=
  if Nat.ltb n 10 then ch (48 + n) else ch (87 + n).
Definition hex_val (c : ascii) : option nat :=
  let n := nat_of_ascii c in
  if Nat.leb 48 n && Nat.leb n 57 then Some (n - 48)
  else if Nat.leb 97 n && Nat.leb n 102 then Some (n - 87)
  else if Nat.leb 65 n && Nat.leb n 70 then Some (n - 55)
  else None.

Definition escape_char (c : ascii) : string :=
  let n := nat_of_ascii c in
  if Nat.eqb n 34 then String cback (String cquote "")
  else if Nat.eqb n 92 then String cback (String cback "")
  else if Nat.eqb n 10 then String cback "n"
  else if Nat.eqb n 13 then String cback "r"
  else if Nat.eqb n 9 then String cback "t"
  else if Nat.eqb n 8 then String cback "b"
  else if Nat.eqb n 12 then String cback "f"
  else if Nat.ltb n 32 || Nat.eqb n 127 then
    String cback (String "u"%char (String "0"%char (String "0"%char
      (String (hex_digit (n / 16)) (String (hex_digit (n mod 16)) "")))))
  else String c "".

Fixpoint escape (s : string) : string :=
  match s with EmptyString => "" | String c r => (escape_char c ++ escape r)%string end.

Definition quote (s : string) : string := String cquote (escape s ++ String cquote "")%string.

Definition dec (z : Z) : string := NilZero.string_of_int (Z.to_int z).

(** json.dumps with the default separators ", " and ": " *)
Fixpoint json_dumps (v : val) : string :=
  match v with
  | VNone => "null"
  | VBool true => "true"
  | VBool false => "false"
  | VInt z => dec z
  | VStr s => quote s
  | VList l => String "["%char
      ((fix go (l : list val) : string :=
         match l with
         | [] => "]"
         | [x] => json_dumps x ++ "]"
         | x :: r => json_dumps x ++ ", " ++ go r
         end) l)
  | VDict d => String "{"%char
      ((fix go (l : list (string * val)) : string :=
         match l with
         | [] => "}"
         | [(k, x)] => quote k ++ ": " ++ json_dumps x ++ "}"
         | (k, x) :: r => quote k ++ ": " ++ json_dumps x ++ ", " ++ go r
         end) d)
  end%string.

Definition is_ws (c : ascii) : bool :=
  let n := nat_of_ascii c in Nat.eqb n 32 || Nat.eqb n 9 || Nat.eqb n 10 || Nat.eqb n 13.
Fixpoint skip_ws (s : string) : string :=
  match s with String c r => if is_ws c then skip_ws r else s | EmptyString => s end.

(** UTF-8 encoding of one \uXXXX code unit (surrogates are rejected). *)
Definition utf8 (n : nat) : option string :=
  if Nat.ltb n 128 then Some (String (ch n) "")
  else if Nat.ltb n 2048 then Some (String (ch (192 + n / 64)) (String (ch (128 + n mod 64)) ""))
  else if Nat.leb 864 (n / 64) && Nat.ltb (n / 64) 896 then None
  else Some (String (ch (224 + (n / 64) / 64)) (String (ch (128 + (n / 64) mod 64)) (String (ch (128 + n mod 64)) ""))).

Definition unescape1 (c : ascii) : option ascii :=
  let n := nat_of_ascii c in
  if Nat.eqb n 34 then Some cquote
  else if Nat.eqb n 92 then Some cback
  else if Nat.eqb n 47 then Some c
  else if Nat.eqb n 110 then Some (ch 10)
  else if Nat.eqb n 114 then Some (ch 13)
  else if Nat.eqb n 116 then Some (ch 9)
  else if Nat.eqb n 98 then Some (ch 8)
  else if Nat.eqb n 102 then Some (ch 12)
  else None.

(** string body up to and including the closing quote *)
Fixpoint pstr (s : string) : option (string * string) :=
  match s with
  | EmptyString => None
  | String c r =>
      if Ascii.eqb c cquote then Some ("", r)
      else if Ascii.eqb c cback then
        match r with
        | EmptyString => None
        | String e r1 =>
            if Ascii.eqb e "u"%char then
              match r1 with
              | String h1 (String h2 (String h3 (String h4 r2))) =>
                  match hex_val h1, hex_val h2, hex_val h3, hex_val h4 with
                  | Some a, Some b, Some c', Some d =>
                      match utf8 (((a * 16 + b) * 16 + c') * 16 + d), pstr r2 with
                      | Some u, Some (t, rest) => Some ((u ++ t)%string, rest)
                      | _, _ => None
                      end
                  | _, _, _, _ => None
                  end
              | _ => None
              end
            else match unescape1 e with
                 | Some x => match pstr r1 with
                             | Some (t, rest) => Some (String x t, rest)
                             | None => None
                             end
                 | None => None
                 end
        end
      else if Nat.ltb (nat_of_ascii c) 32 then None
      else match pstr r with Some (t, rest) => Some (String c t, rest) | None => None end
  end.

Definition num_char (c : ascii) : bool := is_digit c || Ascii.eqb c "-"%char.
Fixpoint span (f : ascii -> bool) (s : string) : string * string :=
  match s with
  | EmptyString => ("", "")
  | String c r => if f c then let (a, b) := span f r in (String c a, b) else ("", s)
  end.
Definition pnum (s : string) : option (val * string) :=
  let (a, b) := span num_char s in
  match NilZero.int_of_string a with
  | Some i => match a with EmptyString => None | _ => Some (VInt (Z.of_int i), b) end
  | None => None
  end.

Fixpoint pval (n : nat) (s : string) : option (val * string) :=
  match n with
  | O => None
  | S n' =>
      match skip_ws s with
      | EmptyString => None
      | String c r =>
          if Ascii.eqb c cquote then
            match pstr r with Some (t, rest) => Some (VStr t, rest) | None => None end
          else if Ascii.eqb c "["%char then
            match skip_ws r with
            | String c2 r2 =>
                if Ascii.eqb c2 "]"%char then Some (VList [], r2)
                else match plist n' r with Some (l, rest) => Some (VList l, rest) | None => None end
            | EmptyString => None
            end
          else if Ascii.eqb c "{"%char then
            match skip_ws r with
            | String c2 r2 =>
                if Ascii.eqb c2 "}"%char then Some (VDict [], r2)
                else match pdict n' r with Some (l, rest) => Some (VDict l, rest) | None => None end
            | EmptyString => None
            end
          else if starts_with "null" (String c r) then Some (VNone, drop 4 (String c r))
          else if starts_with "true" (String c r) then Some (VBool true, drop 4 (String c r))
          else if starts_with "false" (String c r) then Some (VBool false, drop 5 (String c r))
          else pnum (String c r)
      end
  end
with plist (n : nat) (s : string) : option (list val * string) :=
  match n with
  | O => None
  | S n' =>
      match pval n' s with
      | None => None
      | Some (v, r) =>
          match skip_ws r with
          | String c r2 =>
              if Ascii.eqb c ","%char then
                match plist n' r2 with Some (l, rest) => Some (v :: l, rest) | None => None end
              else if Ascii.eqb c "]"%char then Some ([v], r2)
              else None
          | EmptyString => None
          end
      end
  end
with pdict (n : nat) (s : string) : option (list (string * val) * string) :=
  match n with
  | O => None
  | S n' =>
      match skip_ws s with
      | String q r0 =>
          if Ascii.eqb q cquote then
            match pstr r0 with
            | None => None
            | Some (k, r1) =>
                match skip_ws r1 with
                | String co r2 =>
                    if Ascii.eqb co ":"%char then
                      match pval n' r2 with
                      | None => None
                      | Some (v, r) =>
                          match skip_ws r with
                          | String c r3 =>
                              if Ascii.eqb c ","%char then
                                match pdict n' r3 with
                                | Some (l, rest) => Some ((k, v) :: l, rest) | None => None end
                              else if Ascii.eqb c "}"%char then Some ([(k, v)], r3)
                              else None
                          | EmptyString => None
                          end
                      end
                    else None
                | EmptyString => None
                end
            end
          else None
      | EmptyString => None
      end
  end.

(** json.loads: one value, then only white space *)
Definition json_loads (s : string) : option val :=
  match pval (S (S (String.length s))) s with
  | Some (v, rest) => match skip_ws rest with EmptyString => Some v | _ => None end
  | None => None
  end.
