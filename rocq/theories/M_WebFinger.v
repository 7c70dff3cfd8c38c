(** Model of WebFinger issuer discovery: oidc/webfinger.py and the parts of
    urllib.parse it uses. *)
From Verif Require Import Base Json Msg M_State M_Ctx M_Codec M_Provider.

(** ** urllib.parse.urlsplit / urlunsplit (CPython 3.9; trusted description) *)
Record urlparts := mkparts { u_scheme : string; u_netloc : string; u_path : string; u_query : string; u_frag : string }.

Fixpoint filter_str (f : ascii -> bool) (s : string) : string :=
  match s with
  | EmptyString => EmptyString
  | String c r => if f c then String c (filter_str f r) else filter_str f r
  end.
(** the longest prefix without a character satisfying [f], and the rest *)
Fixpoint until (f : ascii -> bool) (s : string) : string * string :=
  match s with
  | EmptyString => (EmptyString, EmptyString)
  | String c r => if f c then (EmptyString, s) else let (a, b) := until f r in (String c a, b)
  end.
(** _UNSAFE_URL_BYTES_TO_REMOVE *)
Definition unsafe (c : ascii) : bool :=
  let n := nat_of_ascii c in Nat.eqb n 9 || Nat.eqb n 10 || Nat.eqb n 13.
Definition scheme_char (c : ascii) : bool := is_alnum c || char_in c "+-.".
Definition netloc_end (c : ascii) : bool := char_in c "/?#".
Definition brackets_ok (net : string) : bool := Bool.eqb (char_in "["%char net) (char_in "]"%char net).

Definition split_scheme (u : string) : string * string :=
  match split1 ":"%char u with
  | Some (a, b) => if negb (a =?s "") && all_chars scheme_char a then (lower a, b) else ("", u)
  | None => ("", u)
  end.
Definition split_netloc (u : string) : string * string :=
  if starts_with "//" u then until netloc_end (drop 2 u) else ("", u).
Definition cut (c : ascii) (u : string) : string * string :=
  match split1 c u with Some (a, b) => (a, b) | None => (u, "") end.

(** [nok] stands for the further checks made on the network location, which differ
    between Python versions (NFKC normalisation, bracketed hosts): [false] raises ValueError *)
Definition urlsplit (nok : string -> bool) (url : string) : res urlparts :=
  let (scheme, u1) := split_scheme (filter_str (fun c => negb (unsafe c)) url) in
  let (net, u2) := split_netloc u1 in
  if brackets_ok net && ((net =?s "") || nok net) then
    let (u3, frag) := cut "#"%char u2 in
    let (path, query) := cut "?"%char u3 in
    Ok (mkparts scheme net path query frag)
  else Err ValueError.

Definition uses_netloc : list string :=
  [""; "ftp"; "http"; "gopher"; "nntp"; "telnet"; "imap"; "wais"; "file"; "mms"; "https"; "shttp"; "snews"; "prospero";
   "rtsp"; "rtspu"; "rsync"; "svn"; "svn+ssh"; "sftp"; "nfs"; "git"; "git+ssh"; "ws"; "wss"].
Definition nonempty (s : string) : bool := negb (s =?s "").
Definition urlunsplit (p : urlparts) : string :=
  let url := u_path p in
  let url := if nonempty (u_netloc p)
                || (nonempty (u_scheme p) && mem_str (u_scheme p) uses_netloc && negb (starts_with "//" url))
             then ("//" ++ u_netloc p ++ (if nonempty url && negb (starts_with "/" url) then "/" ++ url else url))%string
             else url in
  let url := if nonempty (u_scheme p) then (u_scheme p ++ ":" ++ url)%string else url in
  let url := if nonempty (u_query p) then (url ++ "?" ++ u_query p)%string else url in
  if nonempty (u_frag p) then (url ++ "#" ++ u_frag p)%string else url.

(** ** oidc/webfinger.py *)
(** oidc/__init__.py: OIC_ISSUER, WF_URL *)
Definition OIC_ISSUER : string := "http://openid.net/specs/connect/1.0/issuer".
Definition WF_URL (authority : string) : string := ("https://" ++ authority ++ "/.well-known/webfinger")%string.

(** 68-76 with [ignore = [FRAGMENT]] *)
Definition create_url (p : urlparts) : string :=
  urlunsplit (mkparts (u_scheme p) (u_netloc p) (u_path p) (u_query p) "").

(** [s.split(c)[0]] *)
Definition before (c : ascii) (s : string) : string := hd "" (split_on c s).

(** 85-143: the host to ask and the resource to ask for.  [s.split('@')[1]] raises
    IndexError only when there is no '@', which the code has excluded. *)
Definition locate (nok : string -> bool) (resource : string) : res (string * string) :=
  match resource with
  | EmptyString => Err IndexError
  | String c _ =>
    if char_in c "=@!" then Err ValueError
    else
      let! part := urlsplit nok resource in
      if u_scheme part =?s "" then
        if u_netloc part =?s "" then
          let path := u_path part in
          if (u_query part =?s "") && (u_frag part =?s "") then
            if contains "/" path || contains ":" path then
              let r := ("https://" ++ resource)%string in
              let! p := urlsplit nok r in Ok (u_netloc p, r)
            else
              Ok (if contains "@" path then nth 1 (split_on "@"%char path) "" else path, ("acct:" ++ path)%string)
          else if nonempty (u_query part) then
            let r := ("https://" ++ path ++ "?" ++ u_query part)%string in
            let! p := urlsplit nok r in Ok (u_netloc p, r)
          else
            let r := ("https://" ++ path)%string in
            let! p := urlsplit nok r in Ok (u_netloc p, r)
        else Err ValueError
      else if negb (mem_str (u_scheme part) ["http"; "https"; "acct"]) then
        let! p := urlsplit nok ("https://" ++ resource)%string in
        Ok (u_netloc p, create_url p)
      else if mem_str (u_scheme part) ["http"; "https"] && (u_netloc part =?s "") then Err ValueError
      else if u_scheme part =?s "acct" then
        let path := before "?"%char (before "/"%char (u_path part)) in
        if contains "@" path
        then Ok (before "#"%char (nth 1 (split_on "@"%char path) ""), create_url part)
        else Err ValueError
      else Ok (u_netloc part, create_url part)
  end.
(** 145-147; oidcmsg.oidc.WebFingerRequest has the default rel, which therefore comes
    first; Message.request appends the form-encoded parameters to the location *)
Definition query (nok : string -> bool) (resource : string) : res string :=
  let! (auth, r) := locate nok resource in
  Ok (WF_URL auth ++ "?" ++ urlencode [("rel", OIC_ISSUER); ("resource", r)])%string.

(** 149-166; a resource that is not a string is not modelled *)
Definition webfinger_request (nok : string -> bool) (args kwargs conf : dict val) : res string :=
  match (match dget "resource" args with
         | Some v => Some v
         | None => match dget "resource" kwargs with Some v => Some v | None => dget "resource" conf end
         end) with
  | None => Err MissingRequiredAttribute
  | Some (VStr r) => query nok r
  | Some _ => Err TypeError
  end.

(** 40-41 *)
Definition self_rel (rel : string) : string := if rel =?s "" then OIC_ISSUER else rel.
(** 51-58 *)
Definition http_allowed (conf : dict val) : res bool :=
  match dget "allow" conf with
  | None => Ok false
  | Some (VDict a) => Ok (otruthy (dget "http_links" a))
  | Some _ => Err TypeError
  end.
(** 48-65: the issuer found, if any *)
Fixpoint pick_link (rel : string) (conf : dict val) (links : list val) : res (option string) :=
  match links with
  | [] => Ok None
  | VDict link :: r =>
      let! lr := dict_get "rel" link in
      if val_eqb lr (VStr rel) then
        let! href := dict_get "href" link in
        let! allowed := http_allowed conf in
        match href with
        | VStr h => if starts_with "http://" h && negb allowed then Err ValueError else Ok (Some h)
        | _ => Err AttributeError
        end
      else pick_link rel conf r
  | _ :: _ => Err TypeError
  end.
(** 43-66 *)
Definition update_webfinger (rel : string) (conf : dict val) (resp : dict val) : M unit := fun c =>
  match dget "links" resp with
  | None => (Err MissingRequiredAttribute, c)
  | Some v =>
      match (let! l := iter_val v in pick_link (self_rel rel) conf l) with
      | Err e => (Err e, c)
      | Ok None => (Ok tt, c)
      | Ok (Some h) => (Ok tt, set_issuer h c)
      end
  end.

Definition any_host (_ : string) : bool := true.
Definition wf (h r : string) : res string :=
  Ok (WF_URL h ++ "?rel=http%3A%2F%2Fopenid.net%2Fspecs%2Fconnect%2F1.0%2Fissuer&resource=" ++ r)%string.
(** tests/test_08_webfinger.py 21-120 *)
Example query_vectors : Forall (fun t => query any_host (fst (fst t)) = wf (snd (fst t)) (snd t))
  [("example.com", "example.com", "acct%3Aexample.com");
   ("joe@example.com", "example.com", "acct%3Ajoe%40example.com");
   ("example.com/joe", "example.com", "https%3A%2F%2Fexample.com%2Fjoe");
   ("example.com:8080", "example.com:8080", "https%3A%2F%2Fexample.com%3A8080");
   ("alice@example.com:8080", "alice@example.com:8080", "https%3A%2F%2Falice%40example.com%3A8080");
   ("https://example.com", "example.com", "https%3A%2F%2Fexample.com");
   ("https://example.com/joe", "example.com", "https%3A%2F%2Fexample.com%2Fjoe");
   ("https://joe@example.com:8080", "joe@example.com:8080", "https%3A%2F%2Fjoe%40example.com%3A8080");
   ("acct:joe@example.com", "example.com", "acct%3Ajoe%40example.com");
   ("example.com?query", "example.com", "https%3A%2F%2Fexample.com%3Fquery");
   ("example.com#fragment", "example.com", "https%3A%2F%2Fexample.com");
   ("example.com:8080/path?query#fragment", "example.com:8080", "https%3A%2F%2Fexample.com%3A8080%2Fpath%3Fquery");
   ("http://example.com:8080/path?query#fragment", "example.com:8080", "http%3A%2F%2Fexample.com%3A8080%2Fpath%3Fquery");
   ("http://example.com?query", "example.com", "http%3A%2F%2Fexample.com%3Fquery");
   ("nov@example.com/path", "nov@example.com", "https%3A%2F%2Fnov%40example.com%2Fpath");
   ("nov@example.com?query", "nov@example.com", "https%3A%2F%2Fnov%40example.com%3Fquery");
   ("nov@example.com:8080/path?query#fragment", "nov@example.com:8080", "https%3A%2F%2Fnov%40example.com%3A8080%2Fpath%3Fquery");
   ("acct:nov@example.com:8080", "example.com:8080", "acct%3Anov%40example.com%3A8080");
   ("acct:nov@example.com/path", "example.com", "acct%3Anov%40example.com%2Fpath");
   ("acct:nov@example.com:8080/path?query#fragment", "example.com:8080", "acct%3Anov%40example.com%3A8080%2Fpath%3Fquery")].
Proof. repeat constructor. Qed.
