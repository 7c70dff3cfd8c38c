(** Model of the services oauth2/access_token.py, oidc/access_token.py,
    oauth2/refresh_access_token.py, oidc/refresh_access_token.py, oidc/userinfo.py,
    oidc/end_session.py, oidc/authorization.py (as a service) and of the PKCE add-on
    (oauth2/add_on/pkce.py). *)
From Verif Require Import Base Json Msg M_State M_Ctx M_Codec M_Authz M_ClientAuth M_Service.

Definition no_gather (a : dict val) (_ : ctx) : res (dict val) := Ok a.
Definition pass (m : msg) (_ : string) : M msg := ret m.

(** the session key: a string *)
Definition key_arg (v : val) : res string := match v with VStr s => Ok s | _ => Err TypeError end.

(** oauth2/access_token.py 37-63 (oauth_pre_construct) *)
Definition token_pre (ps : list string) : pre_method := fun args post kwargs c =>
  (let! st := get_state_parameter args kwargs in
   let! k := key_arg st in
   let! a := extend_request_args (sdb c) [] cOAuth2AuthzRequest "auth_request" k ps false in
   let! a := extend_request_args (sdb c) a cAuthzResponse "auth_response" k ps false in
   Ok (dupdate (dsetdefault "grant_type" (VStr "authorization_code") a) args, post), c).

(** oauth2/access_token.py 32-35 and oauth2/refresh_access_token.py 30-33: both the
    token and the refresh service store under 'token_response' *)
Definition store_token_response (now : Z) (resp : msg) (key : string) : M msg :=
  match add_expires_at now resp with
  | Err e => raise e
  | Ok r => on_db (store_item (IMsg cTokenResponse r) "token_response" key) ;;; ret r
  end.

(** oidc/access_token.py 70-89 *)
Definition oidc_token_update (now : Z) (resp : msg) (key : string) : M msg :=
  (match dget (verified "id_token") resp with
   | None => ret tt
   | Some (VDict idt) => fun c =>
       match dget "nonce" idt with
       | None => (Err ValueError, c)
       | Some (VStr n) =>
           match get_state_by_nonce (sdb c) n with
           | Err (KeyError _) => (Err ValueError, c)
           | Err e => (Err e, c)
           | Ok k =>
               if k =?s key then
                 match dget "sub" idt with
                 | Some (VStr sub) => on_db (store_sub2state sub key) c
                 | Some _ => (Err OtherError, c)
                 | None => (Err (KeyError "sub"), c)
                 end
               else (Err ParameterError, c)
           end
       | Some _ => (Err ValueError, c)
       end
   | Some _ => raise TypeError
   end) ;;;
  store_token_response now resp key.

(** get_authn_method of the OIDC token services *)
Definition token_authn_method (default : string) (c : ctx) : string :=
  match dget "token_endpoint_auth_method" (behaviour c) with Some (VStr m) => m | _ => default end.

(** oauth2/access_token.py 14-33, oidc/access_token.py 19-30; [vrf] is
    AccessTokenResponse.verify *)
Definition oauth2_token_service (vrf : ctx -> msg -> res msg) (now : Z) (conf : dict val) : service :=
  mkservice "accesstoken" cTokenRequest true cTokenResponse "" "token_endpoint" "POST" "urlencoded" "json"
    (fun _ => "client_secret_basic") conf [] [token_pre (c_par cTokenRequest)] [] no_gather [] vrf pass
    (store_token_response now) (Some TypeError).
Definition oidc_token_service (vrf : ctx -> msg -> res msg) (now : Z) (conf : dict val) : service :=
  mkservice "accesstoken" cTokenRequest true cTokenResponse "" "token_endpoint" "POST" "urlencoded" "json"
    (token_authn_method "client_secret_basic") conf [] [token_pre (c_par cTokenRequest)] [] no_gather [] vrf pass
    (oidc_token_update now) (Some TypeError).

(** oauth2/refresh_access_token.py 35-54 *)
Definition refresh_pre (ps : list string) : pre_method := fun args post kwargs c =>
  (let! st := get_state_parameter args kwargs in
   let! k := key_arg st in
   let! a := extend_request_args (sdb c) [] cTokenResponse "token_response" k ps false in
   let! a := extend_request_args (sdb c) a cTokenResponse "refresh_token_response" k ps false in
   Ok (dupdate a args, post), c).
(** oauth2/refresh_access_token.py 14-30, oidc/refresh_access_token.py *)
Definition refresh_service (vrf : ctx -> msg -> res msg) (now : Z) (conf : dict val) : service :=
  mkservice "refresh_token" cRefreshRequest false cTokenResponse "" "token_endpoint" "POST" "urlencoded" "json"
    (token_authn_method "bearer_header") conf [] [refresh_pre (c_par cRefreshRequest)] [] no_gather [] vrf pass
    (store_token_response now) (Some TypeError).

(** ** user info *)
(** oidc/userinfo.py 49-60 *)
Definition userinfo_pre : pre_method := fun args post kwargs c =>
  (if dhas "access_token" args then Ok (args, post)
   else let! st := dict_get "state" kwargs in
        let! k := key_arg st in
        let! a := multiple_extend_request_args (sdb c) args k ["access_token"] token_items false in
        Ok (a, post), c).
(** oidc/userinfo.py 21-29 *)
Definition carry_state : pre_method := fun args post kwargs c =>
  (let! _ := get_state_parameter args kwargs in Ok (args, post), c).

(** oidc/userinfo.py 69-75: the subject check *)
Definition check_sub (args : dict val) (resp : msg) : res unit :=
  match dget "id_token" args with
  | None => Ok tt
  | Some (VDict idt) =>
      match dget "sub" idt with
      | None => Ok tt
      | Some sub => match dget "sub" resp with
                    | None => Err (KeyError "sub")
                    | Some s => if val_eqb s sub then Ok tt else Err ValueError
                    end
      end
  | Some _ => Err TypeError   (* indexing a text with 'sub' *)
  end.
(** oidc/userinfo.py 77-107: aggregated claims.  [agg jwt]: the claims of an
    aggregated JWT; [Ok None] when the signing key is missing (logged and ignored). *)
Definition agg_oracle := string -> res (option (dict val)).
(** 87-92; also oidc/__init__.py 163-176: the claims whose source is [src] *)
Fixpoint copy_claims (names : list (string * val)) (src : string) (claims : dict val) (resp : msg) : res msg :=
  match names with
  | [] => Ok resp
  | (n, VStr s) :: r =>
      if s =?s src then
        match dget n claims with
        | None => Err (KeyError n)
        | Some v => copy_claims r src claims (dset n v resp)
        end
      else copy_claims r src claims resp
  | _ :: r => copy_claims r src claims resp
  end.
(** [p in spec]: a key of a dictionary, a part of a text, a member of a list *)
Definition spec_has (p : string) (spec : val) : res bool :=
  match spec with
  | VDict d => Ok (dhas p d)
  | VStr s => Ok (contains p s)
  | VList l => Ok (existsb (val_eqb (VStr p)) l)
  | _ => Err TypeError
  end.
(** [spec[p]]: a text or a list is not indexed by a text *)
Definition spec_get (p : string) (spec : val) : res val :=
  match spec with VDict d => dict_get p d | _ => Err TypeError end.
(** [hdr]: 98-107, the 'endpoint' case builds an authorization header that is not used, but
    that may fail. *)
Fixpoint aggregate (agg : agg_oracle) (hdr : res unit) (sources : list (string * val)) (resp : msg) : res msg :=
  match sources with
  | [] => Ok resp
  | (src, spec) :: r =>
      let! has := spec_has "JWT" spec in
      if has : bool then
        let! j := spec_get "JWT" spec in
        match j with
        | VStr j =>
            let! oc := agg j in
            match oc with
            | None => aggregate agg hdr r resp
            | Some claims =>
                match dget "_claim_names" resp with
                | Some (VDict names) => let! resp' := copy_claims names src claims resp in aggregate agg hdr r resp'
                | Some _ => Err AttributeError
                | None => Err (KeyError "_claim_names")
                end
            end
        | _ => Err AttributeError
        end
      else
        let! has := spec_has "endpoint" spec in
        if has : bool then
          let! _ := hdr in let! _ := spec_get "endpoint" spec in aggregate agg hdr r resp
        else aggregate agg hdr r resp
  end.
(** oidc/userinfo.py 99-104; service.py 281-304: only whether it raises is of interest *)
Definition unused_header (c : ctx) (state : string) : res unit :=
  let! _ := bearer_header "userinfo" c [("authn_endpoint", VStr "userinfo_endpoint"); ("key", VStr state)] None [] in Ok tt.
(** oidc/userinfo.py 62-114; no post_parse_process extensions *)
Definition userinfo_post_parse (agg : agg_oracle) (resp : msg) (state : string) : M msg :=
  args <- read_db (fun d => multiple_extend_request_args d [] state ["id_token"] token_items false) ;;
  lift (check_sub args resp) ;;;
  resp' <- (fun c => (match dget "_claim_sources" resp with
                      | None => Ok resp
                      | Some (VDict src) => aggregate agg (unused_header c state) src resp
                      | Some _ => Err AttributeError
                      end, c)) ;;
  on_db (store_item (IMsg cMessage resp') "user_info" state) ;;;
  ret resp'.
(** oidc/userinfo.py 33-47 *)
Definition userinfo_service (vrf : ctx -> msg -> res msg) (agg : agg_oracle) (conf : dict val) : service :=
  mkservice "userinfo" cMessage false cMessage "" "userinfo_endpoint" "GET" "urlencoded" "json"
    (fun _ => "bearer_header") conf [] [userinfo_pre; carry_state] [] no_gather [] vrf (userinfo_post_parse agg)
    pass None.

(** ** RP-initiated logout *)
Definition kw_state (kwargs : dict val) : res string := let! v := dict_get "state" kwargs in key_arg v.
(** oidc/end_session.py 32-53 *)
Definition end_id_token_hint : pre_method := fun args post kwargs c =>
  (let! k := kw_state kwargs in
   let! a := multiple_extend_request_args (sdb c) args k ["id_token"] token_items true in
   Ok (match dget "id_token" a with Some v => ddel "id_token" (dset "id_token_hint" v a) | None => a end, post), c).
(** oidc/end_session.py 55-68 *)
Definition first_of (v : val) : res val :=
  match v with
  | VList (x :: _) => Ok x
  | VStr (String a _) => Ok (VStr (String a ""))
  | _ => Err TypeError
  end.
Definition logout_uri (c : ctx) : res (option val) :=
  match dget "post_logout_redirect_uris" (register_args c) with
  | Some v =>
      if truthy v then match v with VStr _ => Ok (Some v) | _ => let! x := first_of v in Ok (Some x) end
      else match dget "post_logout_redirect_uris" (callback c) with
           | Some w => if truthy w then let! x := first_of w in Ok (Some x) else Ok None
           | None => Ok None
           end
  | None => match dget "post_logout_redirect_uris" (callback c) with
            | Some w => if truthy w then let! x := first_of w in Ok (Some x) else Ok None
            | None => Ok None
            end
  end.
Definition end_post_logout_uri : pre_method := fun args post kwargs c =>
  (if dhas "post_logout_redirect_uri" args then Ok (args, post)
   else let! u := logout_uri c in
        Ok (match u with Some v => dset "post_logout_redirect_uri" v args | None => args end, post), c).
(** oidc/end_session.py 71-79; [rnd] is rndstr(32) *)
Definition end_add_state (rnd : string) : pre_method := fun args post kwargs =>
  let args1 := dsetdefault "state" (VStr rnd) args in
  match dget "state" args1, kw_state kwargs with
  | Some (VStr ls), Ok k => on_db (store_logout_state2state ls k) ;;; ret (args1, post)
  | _, Err e => raise e
  | _, _ => raise OtherError
  end.
(** oidc/end_session.py 15-30 *)
Definition end_session_service (vrf : ctx -> msg -> res msg) (rnd : string) (conf : dict val) : service :=
  mkservice "end_session" cEndSessionRequest false cMessage "" "end_session_endpoint" "GET" "urlencoded" "html"
    (fun _ => "") conf [] [end_id_token_hint; end_post_logout_uri; end_add_state rnd] [] no_gather [] vrf pass
    pass None.

(** ** authorization services *)
Definition lift_pre (f : dict val -> dict val -> M (dict val)) : pre_method := fun args post kwargs =>
  a <- f args kwargs ;; ret (a, post).
(** oidc/authorization.py 106-125: what the post_construct methods are told *)
Definition oidc_pre_post_args (post kwargs : dict val) : dict val :=
  let put a d := match dget a kwargs with Some v => dset a v d | None => d end in
  let p := put "sig_kid" (put "algorithm" (put "request_object_signing_alg" post)) in
  match dget "request_method" kwargs with
  | Some v => dset "request_param" (VStr (if val_eqb v (VStr "reference") then "request_uri" else "request")) p
  | None => p
  end.
Definition oidc_pre_construct (rnd : string) : pre_method := fun args post kwargs =>
  a <- oidc_pre_construct_args rnd args ;; ret (a, oidc_pre_post_args post kwargs).
(** oidc/authorization.py 226-240.  [mkobj req kw] is construct_request_parameter
    (159-206): the request object or the URL it is published under; it may raise.
    The statically required parameters are those of the message class. *)
Definition reqobj_oracle := ctx -> msg -> string -> dict val -> res string.
Definition keep_only (ks : list string) (m : msg) : msg := filter (fun kv => mem_str (fst kv) ks) m.
Definition oidc_request_param (mkobj : reqobj_oracle) : post_method := fun req kwargs c =>
  match dget "request_param" kwargs with
  | Some (VStr p) =>
      if p =?s "" then (Ok req, c)
      else match mkobj c req p kwargs with
           | Err e => (Err e, c)
           | Ok o => (Ok (keep_only (["request"; "request_uri"] ++ c_req cAuthzRequest)
                            (dset (if p =?s "request" then "request" else "request_uri") (VStr o) req)), c)
           end
  | Some v => if truthy v then (Err OtherError, c) else (Ok req, c)
  | None => (Ok req, c)
  end.
Definition oidc_authz_post (mkobj : reqobj_oracle) : post_method := fun req kwargs =>
  r <- oidc_post_construct req ;; oidc_request_param mkobj r kwargs.
(** oauth2/authorization.py 49-58 *)
Definition authz_gather (a : dict val) (c : ctx) : res (dict val) :=
  if dhas "redirect_uri" a then Ok a
  else match redirect_uris c with u :: _ => Ok (dset "redirect_uri" (VStr u) a) | [] => Err IndexError end.
(** oidc/authorization.py 26-37.  [rnd1] is the random session key, [rnd2] the random
    nonce. *)
Definition oidc_authz_service (vrf : ctx -> msg -> res msg) (mkobj : reqobj_oracle) (now : Z) (rnd1 rnd2 : string)
  (conf : dict val) (extra_pre : list pre_method) : service :=
  mkservice "authorization" cAuthzRequest false cAuthzResponse "" "authorization_endpoint" "GET" "urlencoded"
    "urlencoded" (fun _ => "") conf [("scope", strs ["openid"])]
    ([lift_pre (set_state rnd1); lift_pre (fun a _ => pre_construct_pick_redirect_uri a); oidc_pre_construct rnd2]
       ++ extra_pre)
    [oidc_authz_post mkobj] authz_gather [] vrf oidc_authz_post_parse (authz_update_service_context now) (Some AttributeError).

(** oauth2/utils.py 72-75 and oauth2/authorization.py 32-46 *)
Definition set_state_parameter : pre_method := fun args post kwargs c =>
  (let! s := get_state_parameter args kwargs in Ok (dset "state" s args, post), c).
Definition store_auth_request : post_method := fun req kwargs =>
  s <- lift (let! v := get_state_parameter req kwargs in key_arg v) ;;
  on_db (store_item (IMsg cOAuth2AuthzRequest req) "auth_request" s) ;;; ret req.
Definition oauth2_authz_service (vrf : ctx -> msg -> res msg) (now : Z) (conf : dict val) (extra_pre : list pre_method)
  : service :=
  mkservice "authorization" cOAuth2AuthzRequest false cOAuth2AuthzResponse "" "authorization_endpoint" "GET" "urlencoded"
    "urlencoded" (fun _ => "") conf []
    ([lift_pre (fun a _ => pre_construct_pick_redirect_uri a); set_state_parameter] ++ extra_pre)
    [store_auth_request] authz_gather [] vrf oauth2_authz_post_parse (oauth2_authz_update now) (Some TypeError).

(** ** PKCE (oauth2/add_on/pkce.py) *)
(** defaults.py CC_METHOD: the hash functions by method name; the functions
    themselves are trusted *)
Definition hash_oracle := string -> string -> string.
Definition cc_methods : list string := ["S256"; "S384"; "S512"].
(** the add-on's settings, pkce.py 26-48 *)
Definition pkce_conf (c : ctx) : res (dict val) :=
  match dget "pkce" (add_on c) with Some (VDict d) => Ok d | Some _ => Err TypeError | None => Err (KeyError "pkce") end.
Definition pkce_length (conf : dict val) : res nat :=
  match dget "code_challenge_length" conf with
  | None => Ok 64
  | Some (VInt n) => Ok (Z.to_nat n)
  | Some _ => Err TypeError
  end.
(** defaults.py 73 and util.py 85-94; [rand i] is the i-th random number drawn *)
Definition BASECHR : string := "abcdefghijklmnopqrstuvwxyzABCDEFGHIJKLMNOPQRSTUVWXYZ0123456789".
Definition unreserved (rand : nat -> nat) (size : nat) : string :=
  sl (map (fun i => nth (Nat.modulo (rand i) (String.length BASECHR)) (la BASECHR) "a"%char) (seq 0 size)).
(** pkce.py 14-61; [unres n] is unreserved(n): n random characters *)
Definition add_code_challenge (hash : hash_oracle) (unres : nat -> string) : pre_method := fun args post kwargs c =>
  match (let! conf := pkce_conf c in
         let! n := pkce_length conf in
         let! m := match dget "code_challenge_method" conf with
                   | None => Ok "S256" | Some (VStr m) => Ok m | Some _ => Err Unsupported end in
         if mem_str m cc_methods then Ok (unres n, m) else Err Unsupported) with
  | Err e => (Err e, c)
  | Ok (v, m) =>
      match dget "state" args with
      | Some (VStr s) =>
          (on_db (store_item (IMsg cMessage [("code_verifier", VStr v); ("code_challenge_method", VStr m)]) "pkce" s) ;;;
           ret (dset "code_challenge_method" (VStr m) (dset "code_challenge" (VStr (b64e (hash m v))) args), post)) c
      | Some _ => (Err OtherError, c)
      | None => (Err (KeyError "state"), c)
      end
  end.
(** pkce.py 64-79 *)
Definition add_code_verifier : post_method := fun req kwargs c =>
  (let! s := match dget "state" req with
             | Some VNone | None => match dget "state" kwargs with Some v => Ok v | None => Err (KeyError "None") end
             | Some v => Ok v
             end in
   let! k := key_arg s in
   let! it := get_item (sdb c) cMessage "pkce" k in
   let! v := dict_get "code_verifier" it in
   Ok (dset "code_verifier" v req), c).
(** pkce.py 82-84: the state it returns is not used by do_pre_construct *)
Definition put_state_in_post_args : pre_method := carry_state.
(** pkce.py 87-111 on the token service *)
Definition with_pkce (s : service) : service :=
  mkservice (s_name s) (s_cls s) (s_atr s) (s_rcls s) (s_endpoint s) (s_endpoint_name s) (s_http_method s)
    (s_req_type s) (s_resp_type s) (s_authn s) (s_conf s) (s_defaults s) (s_pre s ++ [put_state_in_post_args])
    (s_post s ++ [add_code_verifier]) (s_gather s) (s_extra s) (s_vrf s) (s_post_parse s) (s_update s) (s_redirect s).
