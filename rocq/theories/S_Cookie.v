(** Specification vocabulary for cookies (C24). *)
From Verif Require Import Base Json Msg M_Codec M_Cookie.

(** ** what a history of create_cookie calls has produced *)
(** value, time and type of a created cookie *)
Record created := mkcreated { cr_value : string; cr_now : Z; cr_type : string }.
Definition payload (x : created) : string := (cr_value x ++ "::" ++ z_str (cr_now x) ++ "::" ++ cr_type x)%string.
(** values and types that can be told apart from the separators around them *)
Definition well_formed (x : created) : Prop :=
  contains "::" (cr_value x) = false /\ ends_with ":" (cr_value x) = false /\ contains "::" (cr_type x) = false /\
  (0 <= cr_now x)%Z.

(** lower case hexadecimal *)
Definition hex_digits : string := "0123456789abcdef".
Definition hex_digit (n : nat) : string := substring n 1 hex_digits.
Fixpoint hex (s : string) : string :=
  match s with EmptyString => "" | String c r => (hex_digit (nat_of_ascii c / 16) ++ hex_digit (nat_of_ascii c mod 16) ++ hex r)%string end.
(** the MAC of a signed cookie: under the seed, over payload and time stamp *)
Definition signature (E : cookie_env) (seed load timestamp : string) : string := hex (ck_mac E seed (load ++ timestamp)%string).
(** the key of an encrypted cookie *)
Definition derived_key (E : cookie_env) (symkey seed : string) : string := ck_kdf E (symkey ++ seed)%string.

(** ** the adversary does not break the cryptography: a cookie presented under [name] that
    has a valid MAC has it for a text that was signed, and one that decrypts decrypts to
    something that was encrypted *)
Definition unforged (E : cookie_env) (S : cookie_srv) (made : list created) (kaka : dict string) (name : string) : Prop :=
  forall raw, dget name kaka = Some raw ->
  (forall a b, char_in "|"%char a = false -> char_in "|"%char b = false ->
     ck_unquote raw = (a ++ "|" ++ b ++ "|" ++ signature E (srv_seed S) a b)%string ->
     exists x, In x made /\ (a ++ b = payload x ++ z_str (cr_now x))%string) /\
  (forall t b1 b2 b3 iv ct tag p, ck_unquote raw = (t ++ "|" ++ b1 ++ "|" ++ b2 ++ "|" ++ b3)%string ->
     char_in "|"%char t = false -> char_in "|"%char b1 = false -> char_in "|"%char b2 = false -> char_in "|"%char b3 = false ->
     b64decode b1 = Ok iv -> b64decode b2 = Ok ct -> b64decode b3 = Ok tag ->
     ck_dec E (derived_key E (srv_symkey S) (srv_seed S)) iv (ct ++ tag)%string t = Some p ->
     exists x, In x made /\ p = payload x /\ t = z_str (cr_now x)).
