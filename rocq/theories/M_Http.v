(** Model of src/oidcrp/http.py (HTTPLib), of set_cookie and get_http_params in util.py and
    of how RPHandler and Client hand HTTP arguments on to it. *)
From Verif Require Import Base Json Msg M_Ctx.
From Coq Require Import DecimalString.

(** ** cookies received.  A morsel is what http.cookies.SimpleCookie makes of one cookie in a
    Set-Cookie header; absent attributes are "".  Not modelled: expiry, port, comment, secure
    (they go into the cookie but nothing in the library reads them). *)
Record morsel := mkmorsel { mo_coded : string; mo_domain : string; mo_path : string; mo_version : string;
  mo_max_age : string }.
(** http.cookiejar.CookieJar._cookies: domain -> path -> name -> value *)
Definition jar := dict (dict (dict string)).
Definition sub {A} (k : string) (d : dict (dict A)) : dict A := match dget k d with Some x => x | None => [] end.
(** CookieJar.set_cookie *)
Definition jar_set (domain path name value : string) (j : jar) : jar :=
  dset domain (dset path (dset name value (sub path (sub domain j))) (sub domain j)) j.
Definition quote_char : string := String "034"%char "".
(** util.py 203-207 *)
Definition cookie_value (coded : string) : string :=
  if starts_with quote_char coded && ends_with quote_char coded
  then take (String.length coded - 2) (drop 1 coded) else coded.
(** CookieJar.clear(domain, path, name); KeyError when there is no such cookie *)
Definition jar_clear (domain path name : string) (j : jar) : res jar :=
  match dget domain j with
  | None => Err (KeyError domain)
  | Some a => match dget path a with
              | None => Err (KeyError path)
              | Some b => if dhas name b then Ok (dset domain (dset path (ddel name b) a) j) else Err (KeyError name)
              end
  end.
(** util.py 188-254 for one cookie.  [morsel["max-age"] == 0] compares a text with a number;
    the constructor of Cookie takes int() of the version (simplification: decimal digits
    with a sign only). *)
Definition set_one (name : string) (m : morsel) (j : jar) : res jar :=
  let put := Ok (jar_set (mo_domain m) (mo_path m) name (cookie_value (mo_coded m)) j) in
  if val_eqb (VStr (mo_max_age m)) (VInt 0) then jar_clear (mo_domain m) (mo_path m) name j
  else if mo_version m =?s "" then put
  else match NilZero.int_of_string (hd "" (split_on ","%char (mo_version m))) with
       | Some _ => put
       | None => Err ValueError
       end.
Fixpoint set_cookies (l : list (string * morsel)) (j : jar) : res unit * jar :=
  match l with
  | [] => (Ok tt, j)
  | (n, m) :: r => match set_one n m j with Ok j' => set_cookies r j' | Err e => (Err e, j) end
  end.

(** ** HTTPLib: http.py 19-33 *)
Record httplib := mklib { hl_args : dict val; hl_jar : jar }.
Definition httplib_new (httpc_params : dict val) : httplib :=
  mklib (dupdate [("allow_redirects", VBool false)] httpc_params) [].
(** 36-49 *)
Definition jar_cookies (j : jar) : dict string :=
  fold_left (fun d a => fold_left (fun d b => fold_left (fun d nv => dset (fst nv) (snd nv) d) (snd b) d) (snd a) d) j [].
(** 51-55: an empty jar is false *)
Definition add_cookies (j : jar) (kwargs : dict val) : dict val :=
  match j with [] => kwargs | _ => dset "cookies" (VDict (map (fun nv => (fst nv, VStr (snd nv))) (jar_cookies j))) kwargs end.
(** 57-60; [cb]: the request call back *)
Definition run_req_callback (cb : option (string -> string -> dict val -> dict val)) (url method : string) (kwargs : dict val) : dict val :=
  match cb with Some f => f method url kwargs | None => kwargs end.

(** what goes to requests.request, and what comes back: an exception, or the value of the
    Set-Cookie header if there is one together with the rest of the answer *)
Record sent := mksent { sn_method : string; sn_url : string; sn_args : dict val }.
Definition requests_oracle := sent -> res (option string * val).
(** SimpleCookie(text): the cookies, or CookieError *)
Definition cookie_oracle := string -> res (list (string * morsel)).
(** 62-74 *)
Definition receive_cookies (ck : cookie_oracle) (header : option string) (j : jar) : res unit * jar :=
  match header with
  | None => (Ok tt, j)
  | Some text => match ck text with Err _ => (Err NonFatalException, j) | Ok l => set_cookies l j end
  end.
(** 76-111.  The cookies and the call back are applied to [kwargs] after [_kwargs] has been
    made: what they produce is not used. *)
Definition http_call (req : requests_oracle) (ck : cookie_oracle) (cb : option (string -> string -> dict val -> dict val))
  (url method : string) (kwargs : dict val) (h : httplib) : sent * res val * httplib :=
  let _kwargs := dupdate (hl_args h) kwargs in
  let _unused := run_req_callback cb url method (add_cookies (hl_jar h) kwargs) in
  let s := mksent method url _kwargs in
  match req s with
  | Err e => (s, Err e, h)
  | Ok (setc, r) =>
      match receive_cookies ck setc (hl_jar h) with
      | (Ok _, j) => (s, Ok r, mklib (hl_args h) j)
      | (Err e, j) => (s, Err e, mklib (hl_args h) j)
      end
  end.
(** a sequence of calls of one HTTPLib, each with its own world *)
Record call := mkcall { cl_req : requests_oracle; cl_ck : cookie_oracle; cl_cb : option (string -> string -> dict val -> dict val);
  cl_url : string; cl_method : string; cl_kwargs : dict val }.
Fixpoint http_calls (l : list call) (h : httplib) : list (sent * res val) * httplib :=
  match l with
  | [] => ([], h)
  | c :: r =>
      let '(s, o, h1) := http_call (cl_req c) (cl_ck c) (cl_cb c) (cl_url c) (cl_method c) (cl_kwargs c) h in
      let '(rest, h2) := http_calls r h1 in ((s, o) :: rest, h2)
  end.

(** ** who configures it *)
(** rp_handler.py 96-99 *)
Definition handler_httpc (verify_ssl : val) (httpc_params : dict val) : dict val :=
  match httpc_params with [] => [("verify", verify_ssl)] | _ => httpc_params end.
(** oauth2/__init__.py 72 *)
Definition client_http (httpc_params : dict val) : httplib := httplib_new httpc_params.
(** util.py 509-521; a pair for certificate and key *)
Definition get_http_params (config : dict val) : dict val :=
  let ver := match dget "verify" config with
             | None | Some VNone => match dget "verify_ssl" config with Some v => v | None => VBool true end
             | Some v => v
             end in
  ("verify", ver) ::
  (if otruthy (dget "client_cert" config)
   then let cert := match dget "client_cert" config with Some v => v | None => VNone end in
        if otruthy (dget "client_key" config)
        then [("cert", VList [cert; match dget "client_key" config with Some v => v | None => VNone end])]
        else [("cert", cert)]
   else []).
