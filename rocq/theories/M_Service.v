(** Model of service.py (request construction, response parsing), util.py
    (get_http_url, get_http_body, content types) and oauth2/__init__.py (Client:
    do_request, service_request, get_response, parse_request_response). *)
From Verif Require Import Base Json Msg M_State M_Ctx M_Codec M_Authz M_ClientAuth.
From Coq Require Import DecimalString.

(** ** url encoded messages (oidcmsg.message.Message, trusted description) *)
(** [str(v)] of a scalar, JSON text of a dictionary *)
Definition str_val (v : val) : string :=
  match v with
  | VStr s => s
  | VInt z => NilZero.string_of_int (Z.to_int z)
  | VBool b => if b then "True" else "False"
  | VNone => "None"
  | VList _ | VDict _ => json_dumps v
  end.
(** the (name, value) pairs one parameter contributes: None is skipped, a declared
    space separated list is joined, any other list gives one pair per element *)
Definition qs_param (c : mcls) (kv : string * val) : list (string * string) :=
  let (k, v) := kv in
  match v with
  | VNone => []
  | VList l =>
      if mem_str k (c_sp c) then [(k, str_val (snd (ser_param c (k, v))))]
      else map (fun w => (k, str_val w)) l
  | _ => [(k, str_val v)]
  end.
Definition msg_pairs (c : mcls) (m : msg) : list (string * string) := flat_map (qs_param c) m.
(** [Message.to_urlencoded]: a missing required parameter raises *)
Definition missing_required (c : mcls) (m : msg) : bool :=
  existsb (fun k => negb (dhas k m)) (c_req c).
Definition msg_to_urlencoded (c : mcls) (m : msg) : res string :=
  if missing_required c m then Err MissingRequiredAttribute
  else Ok (urlencode (msg_pairs c m)).

(** [parse_qs]: a dictionary from names to the list of their values *)
Definition qs_add (d : dict (list string)) (kv : string * string) : dict (list string) :=
  dset (fst kv) ((match dget (fst kv) d with Some l => l | None => [] end) ++ [snd kv])%list d.
Definition parse_qs (s : string) : dict (list string) := fold_left qs_add (parse_qsl s) [].

(** [Message.from_urlencoded]: undeclared single values become strings, declared
    space separated parameters are split, a repeated declared single valued
    parameter raises TooManyValues *)
Definition qs_value (c : mcls) (kv : string * list string) : res (string * val) :=
  let (k, vs) := kv in
  if mem_str k (c_sp c) then
    match vs with v :: _ => Ok (k, strs (split_on sp v)) | [] => Err OtherError end
  else match vs with
       | [v] => Ok (k, VStr v)
       | _ => if mem_str k (c_par c) then Err OtherError else Ok (k, strs vs)
       end.
Fixpoint qs_values (c : mcls) (l : dict (list string)) (m : msg) : res msg :=
  match l with
  | [] => Ok m
  | kv :: r => let! (k, v) := qs_value c kv in qs_values c r (dset k v m)
  end.
Definition msg_from_urlencoded (c : mcls) (s : string) : res msg :=
  match parse_qs s with
  | [] => if s =?s "" then Ok (c_default c) else Err FormatError
  | l => qs_values c l (c_default c)
  end.

(** ** URLs (urllib.parse.urlsplit/urlunsplit).  A URL is split at the first '#'
    and then at the first '?'; scheme, host and path stay together.
    Simplification: urlsplit's lower casing of the scheme is not modelled. *)
Record url := mkurl { u_base : string; u_query : string; u_fragment : string }.
Definition urlsplit (s : string) : url :=
  let '(s1, frag) := match split1 "#"%char s with Some (a, b) => (a, b) | None => (s, "") end in
  let '(s2, query) := match split1 "?"%char s1 with Some (a, b) => (a, b) | None => (s1, "") end in
  mkurl s2 query frag.
Definition urlunsplit (u : url) : string :=
  (u_base u ++ (if u_query u =?s "" then "" else "?" ++ u_query u)
            ++ (if u_fragment u =?s "" then "" else "#" ++ u_fragment u))%string.

(** util.py 101-123 *)
Definition get_http_url (u : string) (c : mcls) (req : msg) (meth : string) : res string :=
  if mem_str meth ["GET"; "DELETE"] then
    match req with
    | [] => Ok u
    | _ =>
        let comp := urlsplit u in
        let req' := dupdate req (map (fun kv => (fst kv, strs (snd kv))) (parse_qs (u_query comp))) in
        let! q := msg_to_urlencoded c req' in
        Ok (urlunsplit (mkurl (u_base comp) q (u_fragment comp)))
    end
  else Ok u.

Definition URL_ENCODED := "application/x-www-form-urlencoded".
Definition JSON_ENCODED := "application/json".
Definition JOSE_ENCODED := "application/jose".
Inductive body := BText (s : string) | BMsg (m : msg).
(** util.py 127-145 *)
Definition get_http_body (c : mcls) (req : msg) (content_type : string) : res body :=
  if contains URL_ENCODED content_type then let! s := msg_to_urlencoded c req in Ok (BText s)
  else if contains JSON_ENCODED content_type then Ok (BText (msg_to_json c req))
  else if contains JOSE_ENCODED content_type then Ok (BMsg req)
  else Err Unsupported.

(** ** services *)
(** pre_construct: request arguments, post_args (mutated in place), keyword arguments *)
Definition pre_method := dict val -> dict val -> dict val -> M (dict val * dict val).
(** post_construct: request, keyword arguments *)
Definition post_method := msg -> dict val -> M msg.
(** construct_extra_headers: headers, request, service endpoint name, HTTP method, keyword arguments *)
Definition header_method := headers -> msg -> string -> string -> dict val -> M headers.

(** service.py 36-91: a service instance.  [s_gather] is what a subclass adds to
    gather_request_args; [s_post_parse] is post_parse_response; [s_update] is
    update_service_context (the response it returns is the one it modified in
    place); [s_redirect] is the exception update_service_context raises when it is
    handed the dictionary get_response returns for a 3xx answer. *)
Record service := mkservice {
  s_name : string;
  s_cls : mcls;
  s_atr : bool;
  s_rcls : mcls;
  s_endpoint : string;
  s_endpoint_name : string;
  s_http_method : string;
  s_req_type : string;
  s_resp_type : string;
  s_authn : ctx -> string;   (* get_authn_method *)
  s_conf : dict val;
  s_defaults : dict val;
  s_pre : list pre_method;
  s_post : list post_method;
  s_gather : dict val -> ctx -> res (dict val);
  s_extra : list header_method;
  s_vrf : ctx -> msg -> res msg;
  s_post_parse : msg -> string -> M msg;
  s_update : msg -> string -> M msg;
  s_redirect : option exn
}.

(** service_context.py 305-306: [getattr(context, key, None)].  The 'state'
    attribute is an object, which is not a parameter value: [None] on the outside. *)
Definition ctx_get (c : ctx) (k : string) : option val :=
  dget k [("client_id", VStr (client_id c)); ("client_secret", VStr (client_secret c));
          ("issuer", VStr (issuer c)); ("base_url", VStr (base_url c)); ("jwks_uri", VStr (jwks_uri c));
          ("jwks", jwks c); ("redirect_uris", strs (redirect_uris c)); ("callback", VDict (callback c));
          ("behaviour", VDict (behaviour c)); ("provider_info", VDict (provider_info c));
          ("registration_response", VDict (registration_response c)); ("register_args", VDict (register_args c));
          ("client_preferences", VDict (client_preferences c)); ("config", VDict (config c));
          ("allow", VDict (allow c)); ("add_on", VDict (add_on c))].

(** service.py 109-122: the value looked up for one parameter: the first truthy one *)
Definition first_truthy (l : list (option val)) : option val :=
  match find otruthy l with Some o => o | None => None end.
Definition conf_request_args (s : service) : dict val :=
  match dget "request_args" (s_conf s) with Some (VDict d) => d | _ => [] end.
Definition gathered (s : service) (c : ctx) (p : string) : option val :=
  first_truthy [ctx_get c p; dget p (conf_request_args s); dget p (register_args c);
                dget p (s_defaults s); dget p (behaviour c)].
(** service.py 93-129.  For 'state' the context's StateInterface object would be
    taken, which the message constructor refuses. *)
Fixpoint gather_loop (s : service) (c : ctx) (ps : list string) (args : dict val) : res (dict val) :=
  match ps with
  | [] => Ok args
  | p :: r =>
      if dhas p args then gather_loop s c r args
      else if p =?s "state" then Err ValueError
      else gather_loop s c r (match gathered s c p with Some v => dset p v args | None => args end)
  end.
Definition gather_request_args (s : service) (c : ctx) (args : dict val) : res (dict val) :=
  let! a := gather_loop s c (c_par (s_cls s)) args in s_gather s a c.

(** service.py 131-145 *)
Definition method_args (s : service) (what : string) (kwargs : dict val) : dict val :=
  match dget what (s_conf s) with
  | Some (VDict d) => dupdate d kwargs
  | _ => kwargs
  end.

(** service.py 147-165 *)
Fixpoint run_pre (ms : list pre_method) (args post kwargs : dict val) : M (dict val * dict val) :=
  match ms with
  | [] => ret (args, post)
  | m :: r => ap <- m args post kwargs ;; run_pre r (fst ap) (snd ap) kwargs
  end.
Definition do_pre_construct (s : service) (args kwargs : dict val) : M (dict val * dict val) :=
  run_pre (s_pre s) args [] (method_args s "pre_construct" kwargs).
(** service.py 167-180 *)
Fixpoint run_post (ms : list post_method) (req : msg) (kwargs : dict val) : M msg :=
  match ms with [] => ret req | m :: r => q <- m req kwargs ;; run_post r q kwargs end.
Definition do_post_construct (s : service) (req : msg) (kwargs : dict val) : M msg :=
  run_post (s_post s) req (method_args s "post_construct" kwargs).

(** service.py 192-229 *)
Definition construct (s : service) (args kwargs : dict val) : M msg :=
  ap <- do_pre_construct s args kwargs ;;
  let '(args1, post) := ap in
  let args2 := match dget "state" kwargs with
               | Some v => if mem_str "state" (c_par (s_cls s)) then dsetdefault "state" v args1 else args1
               | None => args1
               end in
  args3 <- (fun c => (gather_request_args s c args2, c)) ;;
  req <- lift (msg_new (s_cls s) args3) ;;
  let post' := match dget "behaviour_args" kwargs with
               | Some (VDict b) => dupdate post b
               | _ => post
               end in
  do_post_construct s req post'.

(** service.py 270-279 *)
Definition get_endpoint (s : service) (c : ctx) : res val :=
  if s_endpoint s =?s "" then dict_get (s_endpoint_name s) (provider_info c)
  else Ok (VStr (s_endpoint s)).

(** service.py 231-252 and 281-304 *)
Definition get_authn_header (E : authn_env) (s : service) (c : ctx) (req : msg) (meth : string)
  (kwargs : dict val) : res (headers * msg) :=
  if meth =?s "" then Ok ([], req)
  else let! (ha, r) := authenticate E meth (s_name s) (s_cls s) (s_atr s) c kwargs None req in
       Ok (match ha with Some h => h | None => [] end, r).

Fixpoint run_headers (ms : list header_method) (h : headers) (req : msg) (ep meth : string) (kwargs : dict val)
  : M headers :=
  match ms with
  | [] => ret h
  | m :: r => h' <- m h req ep meth kwargs ;; run_headers r h' req ep meth kwargs
  end.
(** service.py 315-344 *)
Definition get_headers (E : authn_env) (s : service) (req : msg) (http_method authn_method : string)
  (kwargs : dict val) : M (headers * msg) :=
  meth <- asks (fun c => if authn_method =?s "" then s_authn s c else authn_method) ;;
  hr <- (fun c => (get_authn_header E s c req meth (dset "authn_endpoint" (VStr (s_endpoint_name s)) kwargs), c)) ;;
  h <- run_headers (s_extra s) (fst hr) (snd hr) (s_endpoint_name s) http_method kwargs ;;
  ret (h, snd hr).

(** the dictionary get_request_parameters returns *)
Record info := mkinfo {
  i_method : string; i_request : msg; i_url : string; i_body : option body; i_headers : headers }.

Definition body_content_type (t : string) : string :=
  if t =?s "urlencoded" then URL_ENCODED
  else if mem_str t ["jws"; "jwe"; "jose"] then JOSE_ENCODED
  else JSON_ENCODED.
(** client_auth.py 261: taking the token out of a request makes that parameter
    optional (for the whole class, from then on: only the effect on the request at
    hand is modelled) *)
Definition sent_cls (s : service) (meth : string) (req : msg) : mcls :=
  let ty := if (meth =?s "bearer_header") && (s_name s =?s "refresh_token") then "refresh_token" else "access_token" in
  let relax := ((meth =?s "bearer_header") || (meth =?s "bearer_body")) && dhas ty req in
  {| c_sp := c_sp (s_cls s); c_json := c_json (s_cls s); c_default := c_default (s_cls s);
     c_req := if relax then filter (fun k => negb (k =?s ty)) (c_req (s_cls s)) else c_req (s_cls s);
     c_par := c_par (s_cls s) |}.
(** service.py 346-414.  [method], [body_type], [authn] are the caller's choices, ""
    when not given. *)
Definition get_request_parameters (E : authn_env) (s : service) (args : dict val)
  (method body_type authn : string) (kwargs : dict val) : M info :=
  let method := if method =?s "" then s_http_method s else method in
  authn <- asks (fun c => if authn =?s "" then s_authn s c else authn) ;;
  let body_type := if body_type =?s "" then s_req_type s else body_type in
  req <- construct s args kwargs ;;
  iss <- asks issuer ;;
  let kw := if iss =?s "" then kwargs else dset "iss" (VStr iss) kwargs in
  hr <- get_headers E s req method authn kw ;;
  let cls := sent_cls s authn req in
  let '(h, req) := hr in
  ep <- (match dget "endpoint" kwargs with
         | Some v => ret v
         | None => fun c => (get_endpoint s c, c)
         end) ;;
  match ep with
  | VStr ep =>
      u <- lift (get_http_url ep cls req method) ;;
      if method =?s "POST" then
        let ct := body_content_type body_type in
        b <- lift (get_http_body cls req ct) ;;
        ret (mkinfo method req u (Some b) (dset "Content-Type" ct h))
      else ret (mkinfo method req u None h)
  | _ => raise OtherError
  end.

(** ** responses *)
Record http_resp := mkresp { h_status : Z; h_ctype : option string; h_text : string }.
(** what service_request returns: a message, a text or the HTTP response itself *)
Inductive response := RMsg (m : msg) | RText (s : string) | RHttp (h : http_resp).

(** service.py 418-434 *)
Definition get_urlinfo (info : string) : string :=
  if char_in "?"%char info || char_in "#"%char info
  then let u := urlsplit info in if u_query u =?s "" then u_fragment u else u_query u
  else info.

(** service_context.py 19-61.  Misspelt 'token_enpoint_auth' is no service name either. *)
Definition CLI_REG_MAP : list (string * list (string * string)) :=
  [("userinfo", [("sign", "userinfo_signed_response_alg"); ("alg", "userinfo_encrypted_response_alg");
                 ("enc", "userinfo_encrypted_response_enc")]);
   ("id_token", [("sign", "id_token_signed_response_alg"); ("alg", "id_token_encrypted_response_alg");
                 ("enc", "id_token_encrypted_response_enc")]);
   ("request_object", [("sign", "request_object_signing_alg"); ("alg", "request_object_encryption_alg");
                       ("enc", "request_object_encryption_enc")])].
Definition PROVIDER_INFO_MAP : list (string * list (string * string)) :=
  [("id_token", [("sign", "id_token_signing_alg_values_supported"); ("alg", "id_token_encryption_alg_values_supported");
                 ("enc", "id_token_encryption_enc_values_supported")]);
   ("userinfo", [("sign", "userinfo_signing_alg_values_supported"); ("alg", "userinfo_encryption_alg_values_supported");
                 ("enc", "userinfo_encryption_enc_values_supported")]);
   ("request_object", [("sign", "request_object_signing_alg_values_supported");
                       ("alg", "request_object_encryption_alg_values_supported");
                       ("enc", "request_object_encryption_enc_values_supported")]);
   ("token_enpoint_auth", [("sign", "token_endpoint_auth_signing_alg_values_supported")])].
Definition map_get (tab : list (string * list (string * string))) (typ attr : string) (d : dict val) : option val :=
  match dget typ tab with
  | None => None
  | Some row => match dget attr row with None => None | Some p => dget p d end
  end.
(** service_context.py 267-303 (get_sign_alg, get_enc_alg_enc): one attribute *)
Definition get_alg (c : ctx) (typ attr : string) : option val :=
  match map_get CLI_REG_MAP typ attr (behaviour c) with
  | Some v => Some v
  | None => map_get PROVIDER_INFO_MAP typ attr (provider_info c)
  end.
(** how a JWT is unpacked: service.py 472-480 by a JWT object that is told the algorithms
    and who the recipient is, or 484-497 by the message class *)
Inductive jwt_use :=
| JwtUnpack (sign alg enc : option val) (recipient : string)
| JwtDeserialize (iss : string).
(** [jwt_of] : unpacking of a signed/encrypted response (cryptojwt, oidcmsg; trusted): the
    claims, or an exception. *)
Definition jwt_oracle := jwt_use -> string -> res (dict val).
(** service.py 472-480 *)
Definition do_jwt (jwt_of : jwt_oracle) (name : string) (c : ctx) (inf : string) : res (dict val) :=
  jwt_of (JwtUnpack (get_alg c name "sign") (get_alg c name "alg") (get_alg c name "enc") (client_id c)) inf.

(** service.py 484-503: deserialisation.  'json' falls back to 'jwt' and re-raises
    the first error when that fails too. *)
Definition do_response (jwt_of : jwt_oracle) (iss : string) (cls : mcls) (inf sformat : string) : res msg :=
  if sformat =?s "json" then
    match msg_from_json cls inf with
    | Ok m => Ok m
    | Err e => match (let! d := jwt_of (JwtDeserialize iss) inf in msg_new cls d) with Ok m => Ok m | Err _ => Err e end
    end
  else if sformat =?s "urlencoded" then msg_from_urlencoded cls inf
  else Err FormatError.

(** service.py 505-578 for a text [inf]; the keyword arguments only go to the
    deserialiser *)
Definition parse_response (jwt_of : jwt_oracle) (s : service) (inf sformat state : string) : M msg :=
  let sformat := if sformat =?s "" then s_resp_type s else sformat in
  if mem_str sformat ["jose"; "jws"; "jwe"] then raise OtherError   (* the raw text would be returned *)
  else
    resp <- (fun c => (if sformat =?s "jwt" then let! d := do_jwt jwt_of (s_name s) c inf in msg_new (s_rcls s) d
                       else do_response jwt_of (issuer c) (s_rcls s)
                              (if sformat =?s "urlencoded" then get_urlinfo inf else inf) sformat, c)) ;;
    r <- (if is_error_message resp then ret resp
          else fun c => match s_vrf s c resp with
                        | Err e => (Err e, c)
                        | Ok v => s_post_parse s v state c
                        end) ;;
    match r with [] => raise ResponseError | _ => ret r end.

Definition SUCCESSFUL : list Z := [200; 201; 202; 203; 204; 205; 206]%Z.
Definition zmem (x : Z) (l : list Z) : bool := existsb (Z.eqb x) l.

(** util.py 318-351 *)
Definition get_deserialization_method (h : http_resp) : string :=
  match h_ctype h with
  | None | Some "" => match json_loads (h_text h) with Some _ => "json" | None => "urlencoded" end
  | Some ct =>
      if starts_with "application/json" ct || starts_with "application/jrd+json" ct then "json"
      else if starts_with "application/jwt" ct then "jwt"
      else if starts_with "application/jose" ct then "jose"
      else if starts_with URL_ENCODED ct then "urlencoded"
      else ""
  end.

(** oauth2/__init__.py 190-269 *)
Definition parse_request_response (jwt_of : jwt_oracle) (s : service) (h : http_resp)
  (response_body_type state : string) : M response :=
  let st := h_status h in
  if zmem st SUCCESSFUL then
    let d := get_deserialization_method h in
    let vt := if mem_str d ["json"; "jwt"; "urlencoded"] then d else response_body_type in
    m <- parse_response jwt_of s (h_text h) vt state ;; ret (RMsg m)
  else if zmem st [302; 303]%Z then ret (RHttp h)
  else if (st =? 500)%Z then raise ParseError
  else if ((400 <=? st) && (st <? 500))%Z then
    let d := get_deserialization_method h in
    let d := if d =?s "" then "json" else d in
    let mark (m : msg) := RMsg (dset "status_code" (VInt st) m) in
    fun c =>
      match parse_response jwt_of s (h_text h) d "" c with
      | (Ok m, c1) => (Ok (mark m), c1)
      | (Err FormatError, c1) =>
          if d =?s response_body_type then (Err OidcServiceError, c1)
          else match parse_response jwt_of s (h_text h) response_body_type "" c1 with
               | (Ok m, c2) => (Ok (mark m), c2)
               | (Err OidcServiceError, c2) | (Err FormatError, c2) => (Err OidcServiceError, c2)
               | (Err e, c2) => (Err e, c2)
               end
      | (Err JSONDecodeError, c1) => (Ok (mark [("error", VStr (h_text h))]), c1)
      | (Err e, c1) => (Err e, c1)
      end
  else raise OidcServiceError.

(** the HTTP client: answers a request or raises *)
Definition http_client := string -> string -> option body -> headers -> res http_resp.

(** oauth2/__init__.py 104-143 *)
Definition get_response (http : http_client) (jwt_of : jwt_oracle) (s : service) (u method : string)
  (b : option body) (rbt : string) (h : headers) (state : string) : M response :=
  match http u method b h with
  | Err e => raise e
  | Ok resp =>
      if ((300 <=? h_status resp) && (h_status resp <? 400))%Z then ret (RHttp resp)
      else
        let ok := (h_status resp <? 300)%Z in
        let rbt' := if ok && (rbt =?s "") then s_resp_type s else rbt in
        if ok && (rbt' =?s "html") then ret (RText (h_text resp))
        else parse_request_response jwt_of s resp rbt' state
  end.

(** 'error' in response *)
Definition has_error (r : response) : bool :=
  match r with RMsg m => dhas "error" m | RText t => contains "error" t | RHttp _ => false end.

(** oauth2/__init__.py 145-188.  [state = None]: no state argument, the key is ''.
    What update_service_context does with a text is not modelled (html answers are
    only used by services that do not override it). *)
Definition service_request (http : http_client) (jwt_of : jwt_oracle) (s : service) (u method : string)
  (b : option body) (rbt : string) (h : headers) (state : option string) : M response :=
  let st := match state with Some x => x | None => "" end in
  r <- get_response http jwt_of s u method b rbt h st ;;
  if has_error r then ret r
  else match r with
       | RMsg m => m' <- s_update s m st ;; ret (RMsg m')
       | RHttp hr => match s_redirect s with Some e => raise e | None => ret r end
       | RText _ => ret r
       end.

(** oauth2/__init__.py 80-99 *)
Definition do_request (E : authn_env) (http : http_client) (jwt_of : jwt_oracle) (s : service)
  (rbt : string) (args : dict val) (authn : string) (kwargs : dict val) : M response :=
  i <- get_request_parameters E s args "" "" authn kwargs ;;
  let rbt := if rbt =?s "" then s_resp_type s else rbt in
  service_request http jwt_of s (i_url i) (i_method i) (i_body i) rbt (i_headers i)
    (Some (match dget "state" kwargs with Some (VStr x) => x | _ => "" end)).
