(** Model of src/oidcrp/cookie.py and of the value encoding of http.cookies.
    Text is a byte string (UTF-8), as everywhere in the model. *)
From Verif Require Import Base BaseP Json Msg M_Codec.
From Coq Require Import DecimalString.

(** ** http.cookies: _quote and _unquote of a cookie value.  Simplification: Python escapes
    the code points 128-255 and leaves higher ones; here every byte above 127 is escaped. *)
Definition ck_legal (c : ascii) : bool := is_alnum c || char_in c "!#$%&'*+-.^_`|~:".
Definition ck_plain (c : ascii) : bool := ck_legal c || char_in c " ()/<=>?@[]{}".
Definition bslash : ascii := "092"%char.
Definition dquote : ascii := "034"%char.
Definition octal (n : nat) : ascii := ascii_of_nat (48 + n).
Definition ck_esc (c : ascii) : string :=
  if ck_plain c then String c ""
  else if Ascii.eqb c dquote || Ascii.eqb c bslash then String bslash (String c "")
  else let n := nat_of_ascii c in
       String bslash (String (octal (n / 64)) (String (octal ((n / 8) mod 8)) (String (octal (n mod 8)) ""))).
Fixpoint ck_escs (s : string) : string :=
  match s with EmptyString => "" | String c r => (ck_esc c ++ ck_escs r)%string end.
(** the empty value is written as it is (_is_legal_key is a fullmatch of [..]+, so
    the empty text is quoted) *)
Definition ck_quote (s : string) : string :=
  if all_chars ck_legal s && negb (s =?s "") then s else (String dquote "" ++ ck_escs s ++ String dquote "")%string.
Definition oct_val (max : nat) (c : ascii) : option nat :=
  let n := nat_of_ascii c in if (Nat.leb 48 n) && (Nat.leb n (48 + max)) then Some (n - 48) else None.
Definition newline : ascii := "010"%char.
(** the loop of _unquote: an octal escape, else any escaped character but a newline *)
Fixpoint ck_unesc (s : string) : string :=
  match s with
  | EmptyString => ""
  | String c r =>
      if Ascii.eqb c bslash then
        match r with
        | String a r1 =>
            match r1 with
            | String b (String d r2) =>
                match oct_val 3 a, oct_val 7 b, oct_val 7 d with
                | Some x, Some y, Some z => String (ascii_of_nat (x * 64 + y * 8 + z)) (ck_unesc r2)
                | _, _, _ => if Ascii.eqb a newline then String c (ck_unesc r) else String a (ck_unesc r1)
                end
            | _ => if Ascii.eqb a newline then String c (ck_unesc r) else String a (ck_unesc r1)
            end
        | EmptyString => String c ""
        end
      else String c (ck_unesc r)
  end.
(** the text between the first and the last character *)
Fixpoint but_last (s : string) : string :=
  match s with EmptyString => "" | String c EmptyString => "" | String c r => String c (but_last r) end.
Definition ck_unquote (s : string) : string :=
  match s with
  | String c r =>
      if Ascii.eqb c dquote && ends_with (String dquote "") r then ck_unesc (but_last r) else s
  | EmptyString => ""
  end.

(** ** cookie.py 36-43: comparison in constant time *)
Fixpoint xor_all (a b : string) : nat :=
  match a, b with
  | String c a', String d b' => Nat.lor (Nat.lxor (nat_of_ascii c) (nat_of_ascii d)) (xor_all a' b')
  | _, _ => 0
  end.
Definition safe_str_cmp (a b : string) : bool :=
  if Nat.eqb (String.length a) (String.length b) then Nat.eqb (xor_all a b) 0 else false.

(** ** cryptography: HMAC-SHA1, SHA-256, AES-GCM.  Decryption gives None when the tag is
    wrong or the nonce unusable. *)
Record cookie_env := mkck {
  ck_mac : string -> string -> string;             (* key, text: the raw digest *)
  ck_kdf : string -> string;
  ck_enc : string -> string -> string -> string -> string;          (* key, iv, plain text, associated data *)
  ck_dec : string -> string -> string -> string -> option string
}.
Definition hex_lower (n : nat) : ascii := if Nat.ltb n 10 then ascii_of_nat (48 + n) else ascii_of_nat (87 + n).
Fixpoint hexdigest (s : string) : string :=
  match s with
  | EmptyString => ""
  | String c r => String (hex_lower (nat_of_ascii c / 16)) (String (hex_lower (nat_of_ascii c mod 16)) (hexdigest r))
  end.
(** cookie.py 61-75; empty parts contribute nothing anyway *)
Definition cookie_signature (E : cookie_env) (key : string) (parts : list string) : string :=
  hexdigest (ck_mac E key (String.concat "" parts)).
(** 79-89 *)
Definition verify_cookie_signature (E : cookie_env) (sig key : string) (parts : list string) : bool :=
  safe_str_cmp sig (cookie_signature E key parts).
(** 92-105 *)
Definition make_hashed_key (E : cookie_env) (enc_key seed : string) : string := ck_kdf E (enc_key ++ seed)%string.

Definition bar : ascii := "|"%char.
Definition z_str (n : Z) : string := NilZero.string_of_int (Z.to_int n).
(** 108-200: the value of the cookie as it stands in the header; attributes left out.
    [iv]: os.urandom(12) *)
Definition make_cookie (E : cookie_env) (now : Z) (iv load seed timestamp enc_key : string) : string :=
  let ts := if timestamp =?s "" then z_str now else timestamp in
  ck_quote (join "|"
    (if enc_key =?s "" then [load; ts; cookie_signature E seed [load; ts]]
     else let ct := ck_enc E (make_hashed_key E enc_key seed) iv load ts in
          let n := String.length ct - 16 in
          [ts; b64enc false iv; b64enc false (take n ct); b64enc false (drop n ct)])).

(** base64.b64decode: characters outside the alphabet are skipped *)
Fixpoint keep_chars (f : ascii -> bool) (s : string) : string :=
  match s with EmptyString => "" | String c r => if f c then String c (keep_chars f r) else keep_chars f r end.
Definition b64decode (s : string) : res string :=
  match b64dec false (keep_chars (fun c => char_in c (alphabet false) || Ascii.eqb c pad) s) with
  | Some x => Ok x
  | None => Err ValueError   (* binascii.Error *)
  end.

(** 258-272: [kaka]: the values in the Cookie header by name *)
Definition cookie_parts (name : string) (kaka : dict string) : option (list string) :=
  match dget name kaka with Some raw => Some (split_on bar (ck_unquote raw)) | None => None end.
(** 203-255; [aesgcm.decrypt] raises InvalidTag, which is not the exception caught *)
Definition parse_cookie (E : cookie_env) (name seed : string) (kaka : dict string) (enc_key : string)
  : res (option (string * string)) :=
  match kaka with
  | [] => Ok None
  | _ =>
      match cookie_parts name kaka with
      | None => Ok None
      | Some [cleartext; timestamp; sig] =>
          if verify_cookie_signature E sig seed [cleartext; timestamp] then Ok (Some (cleartext, timestamp))
          else Err InvalidCookieSign
      | Some [timestamp; b1; b2; b3] =>
          let! iv := b64decode b1 in
          let! ciphertext := b64decode b2 in
          let! tag := b64decode b3 in
          match ck_dec E (make_hashed_key E enc_key seed) iv (ciphertext ++ tag)%string timestamp with
          | Some cleartext => Ok (Some (cleartext, timestamp))
          | None => Err InvalidTag
          end
      | Some _ => Ok None
      end
  end.

(** ** CookieDealer, 275-393; srv has a seed and a symkey ('' or None: not encrypted) *)
Record cookie_srv := mksrv { srv_seed : string; srv_symkey : string }.
Definition colons : string := "::".
(** 323-367: the value of the cookie *)
Definition create_cookie (E : cookie_env) (S : cookie_srv) (now : Z) (iv value typ : string) : string :=
  let timestamp := z_str now in
  make_cookie E now iv (join colons [value; timestamp; typ]) (srv_seed S) timestamp (srv_symkey S).
(** str.split('::') *)
Fixpoint split_colons (s : string) : list string :=
  let cons c l := match l with h :: t => String c h :: t | [] => [String c ""] end in
  match s with
  | EmptyString => [""]
  | String c r =>
      if Ascii.eqb c ":" then
        match r with
        | String d r' => if Ascii.eqb d ":" then "" :: split_colons r' else cons c (split_colons r)
        | EmptyString => [String c ""]
        end
      else cons c (split_colons r)
  end.
(** 369-393 *)
Definition get_cookie_value (E : cookie_env) (S : cookie_srv) (kaka : dict string) (name : string)
  : res (option (string * string * string)) :=
  match parse_cookie E name (srv_seed S) kaka (srv_symkey S) with
  | Err TypeError => Ok None
  | Err e => Err e
  | Ok None => Ok None    (* unpacking None: TypeError *)
  | Ok (Some (info, timestamp)) =>
      match split_colons info with
      | [value; ts; typ] => Ok (if timestamp =?s ts then Some (value, ts, typ) else None)
      | _ => Err ValueError
      end
  end.
