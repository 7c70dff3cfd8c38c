(** Model of the byte encodings the code uses from the Python standard library and
    cryptojwt.utils (not in /repo): base64.b64encode / urlsafe_b64encode and their
    decoders, cryptojwt.utils.b64e / b64d, urllib.parse.quote_plus / unquote_plus,
    urlencode / parse_qsl.  Strings are byte strings (UTF-8 text). *)
From Verif Require Import Base.

(** ** base64 *)
Definition b64_std : string := "ABCDEFGHIJKLMNOPQRSTUVWXYZabcdefghijklmnopqrstuvwxyz0123456789+/".
Definition b64_url : string := "ABCDEFGHIJKLMNOPQRSTUVWXYZabcdefghijklmnopqrstuvwxyz0123456789-_".
Definition alphabet (url : bool) : string := if url then b64_url else b64_std.
Definition pad : ascii := "="%char.

Definition enc6 (url : bool) (n : nat) : ascii :=
  match String.get n (alphabet url) with Some c => c | None => pad end.
Fixpoint index_of (c : ascii) (s : string) (n : nat) : option nat :=
  match s with
  | EmptyString => None
  | String d r => if Ascii.eqb d c then Some n else index_of c r (S n)
  end.
Definition dec6 (url : bool) (c : ascii) : option nat := index_of c (alphabet url) 0.

Fixpoint b64enc (url : bool) (s : string) : string :=
  match s with
  | EmptyString => EmptyString
  | String a EmptyString =>
      let a := nat_of_ascii a in
      String (enc6 url (a / 4)) (String (enc6 url (a mod 4 * 16)) (String pad (String pad EmptyString)))
  | String a (String b EmptyString) =>
      let a := nat_of_ascii a in let b := nat_of_ascii b in
      String (enc6 url (a / 4)) (String (enc6 url (a mod 4 * 16 + b / 16))
        (String (enc6 url (b mod 16 * 4)) (String pad EmptyString)))
  | String a (String b (String c r)) =>
      let a := nat_of_ascii a in let b := nat_of_ascii b in let c := nat_of_ascii c in
      String (enc6 url (a / 4)) (String (enc6 url (a mod 4 * 16 + b / 16))
        (String (enc6 url (b mod 16 * 4 + c / 64)) (String (enc6 url (c mod 64)) (b64enc url r))))
  end.

(** decoding of the padded form; anything else is an error (binascii.Error).
    CPython's lenient skipping of foreign characters is not modelled. *)
Fixpoint b64dec (url : bool) (s : string) : option string :=
  match s with
  | EmptyString => Some EmptyString
  | String w (String x (String y (String z r))) =>
      match dec6 url w, dec6 url x with
      | Some p, Some q =>
          let a := ascii_of_nat (p * 4 + q / 16) in
          if Ascii.eqb y pad then
            (if Ascii.eqb z pad then match r with EmptyString => Some (String a EmptyString) | _ => None end else None)
          else match dec6 url y with
               | None => None
               | Some u =>
                   let b := ascii_of_nat (q mod 16 * 16 + u / 4) in
                   if Ascii.eqb z pad then
                     match r with EmptyString => Some (String a (String b EmptyString)) | _ => None end
                   else match dec6 url z with
                        | None => None
                        | Some v =>
                            let c := ascii_of_nat (u mod 4 * 64 + v) in
                            match b64dec url r with
                            | Some t => Some (String a (String b (String c t)))
                            | None => None
                            end
                        end
               end
      | _, _ => None
      end
  | _ => None
  end.

(** [s.rstrip("=")] *)
Fixpoint strip_lead (c : ascii) (l : list ascii) : list ascii :=
  match l with [] => [] | d :: r => if Ascii.eqb d c then strip_lead c r else l end.
Definition rstrip (c : ascii) (s : string) : string := sl (rev (strip_lead c (rev (la s)))).
(** cryptojwt.utils.b64e: URL-safe, without padding *)
Definition b64e (s : string) : string := rstrip pad (b64enc true s).
(** cryptojwt.utils.b64d: padding is added back *)
Definition repad (s : string) : option string :=
  match String.length s mod 4 with
  | 0 => Some s | 2 => Some (s ++ "==")%string | 3 => Some (s ++ "=")%string | _ => None
  end.
Definition b64d (s : string) : option string :=
  match repad s with Some t => b64dec true t | None => None end.

(** ** quote_plus / unquote_plus *)
Definition unreserved_char (c : ascii) : bool :=
  is_alnum c || char_in c "_.-~".
Definition hex_digit (n : nat) : ascii :=
  match String.get n "0123456789ABCDEF" with Some c => c | None => "0"%char end.
Definition quote_char (c : ascii) : string :=
  if unreserved_char c then String c EmptyString
  else if Ascii.eqb c sp then "+"
  else let n := nat_of_ascii c in
       String "%" (String (hex_digit (n / 16)) (String (hex_digit (n mod 16)) EmptyString)).
Fixpoint quote_plus (s : string) : string :=
  match s with EmptyString => EmptyString | String c r => (quote_char c ++ quote_plus r)%string end.

Definition hex_val (c : ascii) : option nat :=
  let n := nat_of_ascii c in
  if is_digit c then Some (n - 48)
  else if Nat.leb 65 n && Nat.leb n 70 then Some (n - 55)
  else if Nat.leb 97 n && Nat.leb n 102 then Some (n - 87)
  else None.
(** malformed escapes are kept as they are *)
Fixpoint unquote_plus (s : string) : string :=
  match s with
  | EmptyString => EmptyString
  | String c r =>
      if Ascii.eqb c "%"%char then
        match r with
        | String h (String l t) =>
            match hex_val h, hex_val l with
            | Some a, Some b => String (ascii_of_nat (a * 16 + b)) (unquote_plus t)
            | _, _ => String c (unquote_plus r)
            end
        | _ => String c (unquote_plus r)
        end
      else if Ascii.eqb c "+"%char then String sp (unquote_plus r)
      else String c (unquote_plus r)
  end.

(** ** urlencode / parse_qsl *)
Definition enc_pair (kv : string * string) : string :=
  (quote_plus (fst kv) ++ "=" ++ quote_plus (snd kv))%string.
Definition urlencode (l : list (string * string)) : string := join "&" (map enc_pair l).
Definition dec_pair (s : string) : list (string * string) :=
  match split1 "="%char s with
  | Some (k, v) => if v =?s "" then [] else [(unquote_plus k, unquote_plus v)]  (* blank values are dropped *)
  | None => []
  end.
Definition parse_qsl (s : string) : list (string * string) := flat_map dec_pair (split_on "&"%char s).
