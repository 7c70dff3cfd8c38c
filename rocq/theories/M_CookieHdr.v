(** Model of the Set-Cookie header that make_cookie and CookieDealer give out:
    cookie.py 178-200 and 316-367, and http.cookies.Morsel (set, OutputString). *)
From Verif Require Import Base Json Msg M_Codec M_Cookie.

(** http.cookies: names that are attributes, and the characters of a name *)
Definition ck_reserved : list string :=
  ["expires"; "path"; "comment"; "domain"; "max-age"; "secure"; "httponly"; "version"; "samesite"].
Definition ck_name_ok (name : string) : bool :=
  negb (mem_str (lower name) ck_reserved) && all_chars ck_legal name && negb (name =?s "").
(** cookie.py 183-195.  The attributes given, in the order in which OutputString writes
    them (sorted); [date]: the text for a moment in time.  [expire] is a number of minutes
    (the text 'now' is not modelled). *)
Record ck_attrs := mkattrs {
  at_expire : Z; at_domain : string; at_path : string; at_secure : bool; at_http_only : bool; at_same_site : string
}.
Definition opt_attr (cond : bool) (text : string) : list string := if cond then [text] else [].
Definition ck_attributes (date : Z -> string) (now : Z) (a : ck_attrs) : list string :=
  opt_attr (negb (at_domain a =?s "")) ("Domain=" ++ at_domain a)%string ++
  opt_attr (negb (at_expire a =? 0)%Z) ("expires=" ++ date (now + 60 * at_expire a)%Z)%string ++
  opt_attr (at_http_only a) "HttpOnly" ++
  opt_attr (negb (at_path a =?s "")) ("Path=" ++ at_path a)%string ++
  opt_attr (negb (at_same_site a =?s "")) ("SameSite=" ++ at_same_site a)%string ++
  opt_attr (at_secure a) "Secure".
(** cookie.py 108-200: the value of the Set-Cookie header; an illegal name is a CookieError *)
Definition make_cookie_header (E : cookie_env) (date : Z -> string) (now : Z) (iv name load seed timestamp enc_key : string)
  (a : ck_attrs) : res string :=
  if ck_name_ok name then
    Ok (join "; " ((name ++ "=" ++ make_cookie E now iv load seed timestamp enc_key)%string :: ck_attributes date now a))
  else Err OtherError.

(** the server of a CookieDealer: its cookie_name, cookie_domain and cookie_path (absent or
    None: empty), and the dealer's cookie_ttl *)
Record ck_dealer := mkdealer { dl_srv : cookie_srv; dl_name : string; dl_domain : string; dl_path : string; dl_ttl : Z }.
(** cookie.py 323-367 *)
Definition create_cookie_header (E : cookie_env) (date : Z -> string) (D : ck_dealer) (now : Z) (iv value typ : string)
  (cookie_name : option string) (ttl : Z) (kill : bool) : res string :=
  let ttl' := if kill then (-1)%Z else if (ttl <? 0)%Z then dl_ttl D else ttl in
  let name := match cookie_name with None => dl_name D | Some n => n end in
  let timestamp := z_str now in
  make_cookie_header E date now iv name (join colons [value; timestamp; typ]) (srv_seed (dl_srv D)) timestamp
    (srv_symkey (dl_srv D)) (mkattrs ttl' (dl_domain D) (dl_path D) true true "").
(** cookie.py 312-321 *)
Definition delete_cookie_header (E : cookie_env) (date : Z -> string) (D : ck_dealer) (now : Z) (iv : string)
  (cookie_name : option string) : res string :=
  create_cookie_header E date D now iv "" "" cookie_name (-1) true.
