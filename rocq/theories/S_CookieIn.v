(** The Cookie header of a request (RFC 6265, sections 4.1.1, 4.2 and 5.4). *)
From Verif Require Import Base.

(** the characters of a token and of a cookie value *)
Definition token_char (c : ascii) : bool := is_alnum c || char_in c "!#$%&'*+-.^_`|~".
Definition cookie_octet (c : ascii) : bool := is_alnum c || char_in c "!#$%&'()*+-./:<=>?@[]^_`{|}~".
Definition quote_mark : string := String "034"%char "".
Definition attribute_names : list string :=
  ["expires"; "path"; "comment"; "domain"; "max-age"; "secure"; "httponly"; "version"; "samesite"].
(** a name that cannot be taken for an attribute *)
Definition distinct_name (n : string) : Prop := starts_with "$" n = false /\ ~ In (lower n) attribute_names.
Definition standard_name (n : string) : Prop := n <> "" /\ all_chars token_char n = true /\ distinct_name n.
Definition standard_value (v : string) : Prop :=
  all_chars cookie_octet v = true \/ exists x, v = (quote_mark ++ x ++ quote_mark)%string /\ all_chars cookie_octet x = true.
Definition standard_cookie (c : string * string) : Prop := standard_name (fst c) /\ standard_value (snd c).
(** what a user agent sends for the cookies it has *)
Definition ua_sends (cs : list (string * string)) : string :=
  join "; " (map (fun c => (fst c ++ "=" ++ snd c)%string) cs).
(** the last of the cookies with a name *)
Definition last_of (n v : string) (cs : list (string * string)) : Prop :=
  exists before after, cs = before ++ (n, v) :: after /\ ~ In n (map fst after).
(** a date as "Wed, 18-Nov-2026 10:00:00 GMT" *)
Definition date_text (s : string) : Prop := exists wd day time,
  s = (wd ++ ", " ++ day ++ " " ++ time ++ " GMT")%string /\
  String.length wd = 3 /\ all_chars is_alnum wd = true /\
  String.length day = 11 /\ all_chars (fun c => is_alnum c || Ascii.eqb c "-") day = true /\
  String.length time = 8 /\ all_chars (fun c => is_digit c || Ascii.eqb c ":") time = true.
