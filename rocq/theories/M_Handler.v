(** Model of rp_handler.py: the functions of RPHandler that work on sessions, and
    backchannel_logout.  (client_setup is in M_Setup.v.) *)
From Verif Require Import Base Json Msg M_State M_Ctx M_Codec M_Authz M_ClientAuth M_Service M_Token.

(** The outside world during one call: the clock, the random strings, the HTTP
    peer, JWT unpacking, message verification and the signing keys. *)
Record env := mkenv {
  e_now : Z;
  e_nonce : string;      (* rndstr(24) in init_authorization *)
  e_state : string;      (* rndstr(32) for the session key *)
  e_state2 : string;     (* rndstr(32) for set_state, used only when there is no state *)
  e_nonce2 : string;     (* rndstr(32) for oidc_pre_construct, used only when there is no nonce *)
  e_lstate : string;     (* rndstr(32) for the logout state *)
  e_http : http_client;
  e_jwt : jwt_oracle;
  e_vrf : string -> ctx -> msg -> res msg;   (* verify of the response class, by service name *)
  e_agg : agg_oracle;
  e_reqobj : reqobj_oracle;
  e_authn : authn_env;
  e_rand : nat -> nat;                       (* random numbers drawn by unreserved(n) *)
  e_hash : hash_oracle
}.

(** a Client: its context, the services it was configured with and their
    configuration; [cl_pkce]: the PKCE add-on is active *)
Record client := mkclient { cl_ctx : ctx; cl_services : list string; cl_conf : dict (dict val); cl_pkce : bool }.
Definition conf_of (cl : client) (name : string) : dict val :=
  match dget name (cl_conf cl) with Some d => d | None => [] end.
Definition has_service (cl : client) (name : string) : bool := mem_str name (cl_services cl).

(** the service objects of a client *)
Definition token_svc (W : env) (cl : client) : service :=
  let s := oidc_token_service (e_vrf W "accesstoken") (e_now W) (conf_of cl "accesstoken") in
  if cl_pkce cl then with_pkce s else s.
Definition refresh_svc (W : env) (cl : client) : service :=
  refresh_service (e_vrf W "refresh_token") (e_now W) (conf_of cl "refresh_token").
Definition userinfo_svc (W : env) (cl : client) : service :=
  userinfo_service (e_vrf W "userinfo") (e_agg W) (conf_of cl "userinfo").
Definition end_session_svc (W : env) (cl : client) : service :=
  end_session_service (e_vrf W "end_session") (e_lstate W) (conf_of cl "end_session").
Definition authz_svc (W : env) (cl : client) : service :=
  oidc_authz_service (e_vrf W "authorization") (e_reqobj W) (e_now W) (e_state2 W) (e_nonce2 W)
    (conf_of cl "authorization") (if cl_pkce cl then [add_code_challenge (e_hash W) (unreserved (e_rand W))] else []).

(** oauth2/__init__.py 84: [self._service[request_type]] *)
Definition do_request_named (W : env) (cl : client) (s : service) (args : dict val) (authn : string)
  (kwargs : dict val) : M response :=
  if has_service cl (s_name s) then do_request (e_authn W) (e_http W) (e_jwt W) s "" args authn kwargs
  else raise (KeyError (s_name s)).

(** rp_handler.py 470-490 *)
Definition client_authn_method (c : ctx) : res string :=
  match dget "token_endpoint_auth_method" (behaviour c) with
  | None => Ok ""
  | Some (VStr m) => Ok m
  | Some (VList (VStr m :: _)) => Ok m
  | Some (VList []) => Err IndexError
  | Some _ => Err TypeError
  end.

(** is_error_message of what do_request returned *)
Definition is_error_response (r : response) : bool := has_error r.

(** rp_handler.py 492-535 for a given client *)
Definition get_tokens (W : env) (cl : client) (state : string) : M response :=
  fun c =>
  match (let! ar := get_item (sdb c) cAuthzResponse "auth_response" state in
         let! rq := get_item (sdb c) cAuthzRequest "auth_request" state in
         let! code := dict_get "code" ar in
         let! ru := dict_get "redirect_uri" rq in
         let! am := client_authn_method c in
         Ok ([("code", code); ("state", VStr state); ("redirect_uri", ru);
              ("grant_type", VStr "authorization_code"); ("client_id", VStr (client_id c));
              ("client_secret", VStr (client_secret c))], am)) with
  | Err e => (Err e, c)
  | Ok (args, am) =>
      (r <- do_request_named W cl (token_svc W cl) args am [("state", VStr state)] ;;
       if is_error_response r then raise OidcServiceError else ret r) c
  end.

(** rp_handler.py 537-573 *)
Definition refresh_access_token (W : env) (cl : client) (state scope : string) : M response :=
  fun c =>
  let args := if scope =?s "" then [] else [("scope", VStr scope)] in
  match client_authn_method c with
  | Err e => (Err e, c)
  | Ok am =>
      (r <- do_request_named W cl (refresh_svc W cl) args am [("state", VStr state)] ;;
       if is_error_response r then raise OidcServiceError else ret r) c
  end.

(** rp_handler.py 575-605: the token that is looked up (587-590) is not used *)
Definition get_user_info (W : env) (cl : client) (state access_token : string) : M response :=
  (if access_token =?s ""
   then read_db (fun d => multiple_extend_request_args d [] state ["access_token"] token_items false) ;;; ret tt
   else ret tt) ;;;
  r <- do_request_named W cl (userinfo_svc W cl) [("access_token", VStr access_token)] "" [("state", VStr state)] ;;
  if is_error_response r then raise OidcServiceError else ret r.

(** oidcmsg.oidc: OpenIDSchema.c_param and IdToken.c_param *)
Definition schema_claims : list string :=
  ["sub"; "name"; "given_name"; "family_name"; "middle_name"; "nickname"; "preferred_username"; "profile"; "picture";
   "website"; "email"; "email_verified"; "gender"; "birthdate"; "zoneinfo"; "locale"; "phone_number";
   "phone_number_verified"; "address"; "updated_at"; "_claim_names"; "_claim_sources"].
Definition id_token_claims : list string :=
  ["iss"; "sub"; "aud"; "exp"; "iat"; "auth_time"; "nonce"; "at_hash"; "c_hash"; "acr"; "amr"; "azp"; "sub_jwk"].
(** rp_handler.py 607-618 *)
Definition userinfo_in_id_token (idt : dict val) : dict val :=
  dupdate (flat_map (fun k => match dget k idt with Some v => [(k, v)] | None => [] end) schema_claims)
          (filter (fun kv => negb (mem_str (fst kv) id_token_claims)) idt).

(** set(authreq['response_type']) compared with a set of words *)
Definition same_set (l : list val) (ws : list string) : bool :=
  forallb (fun v => match v with VStr s => mem_str s ws | _ => false end) l &&
  forallb (fun w => existsb (fun v => val_eqb v (VStr w)) l) ws.
Definition one_of (l : list val) (sets : list (list string)) : bool := existsb (same_set l) sets.

(** rp_handler.py 666-735 with an authorization response at hand; the response type
    of the request is a list (AuthorizationRequest) *)
Record tokens := mktokens { t_access : val; t_id : val }.
Definition msg_of (r : response) : msg := match r with RMsg m => m | _ => [] end.
Definition val_or_none (o : option val) : val := match o with Some v => v | None => VNone end.
Definition tokens_from_endpoint (W : env) (cl : client) (state : string) : M tokens :=
  r <- get_tokens W cl state ;;
  a <- lift (dict_get "access_token" (msg_of r)) ;;
  ret (mktokens a (val_or_none (dget (verified "id_token") (msg_of r)))).
Definition get_access_and_id_token (W : env) (cl : client) (resp : msg) (state : string) (collect : bool)
  : M tokens :=
  rq <- read_db (fun d => get_item d cAuthzRequest "auth_request" state) ;;
  rt <- lift (match dget "response_type" rq with
              | Some (VList l) => Ok l
              | Some _ => Err TypeError
              | None => Err (KeyError "response_type")
              end) ;;
  idt <- lift (if one_of rt [["id_token"]; ["id_token"; "token"]; ["code"; "id_token"; "token"]]
               then dict_get (verified "id_token") resp else Ok VNone) ;;
  if one_of rt [["token"]; ["id_token"; "token"]; ["code"; "token"]; ["code"; "id_token"; "token"]] then
    at_ <- lift (dict_get "access_token" resp) ;;
    if collect then tokens_from_endpoint W cl state
    else ret (mktokens at_ idt)
  else if one_of rt [["code"]; ["code"; "id_token"]] then tokens_from_endpoint W cl state
  else ret (mktokens VNone idt).

(** rp_handler.py 786-797 *)
Definition sid_support (c : ctx) : bool :=
  match dget "backchannel_logout_session_supported" (provider_info c) with
  | Some v => truthy v
  | None => otruthy (dget "frontchannel_logout_session_supported" (provider_info c))
  end.

Inductive final := FError (state error : val) | FOk (userinfo : dict val) (state token id_token session_state : val).

(** rp_handler.py 799-812: binding of sid and sub *)
Definition bind_value (x : string) (v : val) (state : string) : M unit :=
  match v with VStr s => on_db (store_x2state s state x) | _ => raise OtherError end.
Definition bind_subject (idt : val) (info : dict val) (state : string) : M unit :=
  match idt with
  | VDict (kv :: r) =>
      let claims := kv :: r in
      c0 <- asks sid_support ;;
      (match c0, dget "sid" claims with
       | true, Some v => bind_value "session id" v state
       | _, _ => ret tt
       end) ;;;
      s <- lift (dict_get "sub" claims) ;;
      bind_value "subject id" s state
  | _ =>
      s <- lift (dict_get "sub" info) ;;
      bind_value "subject id" s state
  end.
(** rp_handler.py 738-821 for the client registered for [iss] *)
Definition finalize (W : env) (cl : client) (iss : string) (response : dict val) (collect : bool) : M final :=
  ar <- finalize_auth (e_vrf W "authorization") (e_now W) iss response ;;
  if is_error_message ar then
    s <- lift (dict_get "state" ar) ;; e <- lift (dict_get "error" ar) ;; ret (FError s e)
  else
    match dget "state" ar with
    | Some (VStr st) =>
        t <- get_access_and_id_token W cl ar st collect ;;
        info <- (if has_service cl "userinfo" && truthy (t_access t) then
                   match t_access t with
                   | VStr a => r <- get_user_info W cl st a ;; ret (msg_of r)
                   | _ => raise OtherError
                   end
                 else match t_id t with
                      | VDict (kv :: r) => ret (userinfo_in_id_token (kv :: r))
                      | _ => ret []
                      end) ;;
        bind_subject (t_id t) info st ;;;
        ret (FOk info (VStr st) (t_access t) (t_id t)
               (match dget "session_state" ar with Some v => v | None => VStr "" end))
    | _ => raise (KeyError "state")
    end.

(** rp_handler.py 823-843 *)
Definition has_active_authentication (now : Z) (d : db) (state : string) : res bool :=
  let! a := multiple_extend_request_args d [] state [verified "id_token"] token_items false in
  match a with
  | [] => Ok false
  | _ => let! idt := dict_get (verified "id_token") a in
         match idt with
         | VDict claims =>
             let! e := dict_get "exp" claims in
             match e with VInt z => Ok (now <? z)%Z | _ => Err TypeError end
         | _ => Err TypeError
         end
  end.

(** rp_handler.py 855-886.  The accumulator: indefinite tokens in order, best
    expiring token, its expiry. *)
Definition scan_token (now : Z) (r : res msg) (acc : list val * option (val * Z) * Z)
  : res (list val * option (val * Z) * Z) :=
  let '(ind, tok, exp) := acc in
  match r with
  | Err (KeyError _) => Ok acc
  | Err e => Err e
  | Ok m =>
      match dget "access_token" m with
      | None => Ok acc
      | Some a =>
          match dget "__expires_at" m with
          | None => Ok (ind ++ [a], tok, exp)
          | Some (VInt x) => if ((now <? x) && (exp <? x))%Z then Ok (ind, Some (a, x), x) else Ok acc
          | Some _ => Err TypeError
          end
      end
  end.
Definition get_valid_access_token (now : Z) (d : db) (state : string) : res (val * Z) :=
  let! a1 := scan_token now (get_item d cTokenResponse "refresh_token_response" state) ([], None, 0%Z) in
  let! a2 := scan_token now (get_item d cTokenResponse "token_response" state) a1 in
  let! a3 := scan_token now (get_item d cAuthzResponse "auth_response" state) a2 in
  let '(ind, tok, _) := a3 in
  match ind with
  | a :: _ => Ok (a, 0%Z)
  | [] => match tok with Some t => Ok t | None => Err OidcServiceError end
  end.

(** rp_handler.py 888-923; get_service gives None for an unknown service, so the
    attribute access raises AttributeError *)
Definition logout (W : env) (cl : client) (state uri : string) : M info :=
  if has_service cl "end_session" then
    get_request_parameters (e_authn W) (end_session_svc W cl)
      (if uri =?s "" then [] else [("post_logout_redirect_uri", VStr uri)]) "" "" "" [("state", VStr state)]
  else raise AttributeError.

(** rp_handler.py 362-423 for a given client.  [reqs] is the caller's req_args,
    [beh] the behaviour_args. *)
Definition response_type_of (c : ctx) (reqs : dict val) : res val :=
  let! rts := dict_get "response_types" (behaviour c) in
  let! d := (match rts with
             | VList (v :: _) => Ok v
             | VStr (String a _) => Ok (VStr (String a ""))
             | VList [] | VStr "" => Err IndexError
             | _ => Err TypeError end) in
  Ok (match dget "response_type" reqs with Some v => v | None => d end).
Definition config_request_args (c : ctx) : dict val :=
  match dget "request_args" (config c) with Some (VDict d) => d | _ => [] end.
Definition authz_request_args (W : env) (c : ctx) (reqs : dict val) : res (dict val) :=
  let! rt := response_type_of c reqs in
  let! ru := pick_redirect_uri c (Some reqs) (Some rt) in
  let! scope := dict_get "scope" (behaviour c) in
  Ok (dupdate (dupdate [("redirect_uri", ru); ("scope", scope); ("response_type", rt); ("nonce", VStr (e_nonce W))]
                       (config_request_args c)) reqs).
Definition init_authorization (W : env) (cl : client) (reqs : dict val) (beh : option (dict val))
  : M (string * string) :=
  args <- (fun c => (authz_request_args W c reqs, c)) ;;
  iss <- asks issuer ;;
  st <- on_db (create_state (e_state W) iss "") ;;
  on_db (store_nonce2state (e_nonce W) st) ;;;
  i <- get_request_parameters (e_authn W) (authz_svc W cl) (dset "state" (VStr st) args) "" "" ""
         (match beh with Some b => [("behaviour_args", VDict b)] | None => [] end) ;;
  ret (i_url i, st).

(** ** the handler: its clients by issuer (issuer2rp) *)
Definition handler := dict client.
Definition set_ctx (c : ctx) (cl : client) : client := mkclient c (cl_services cl) (cl_conf cl) (cl_pkce cl).
(** run a computation of one client *)
Definition on_client {A} (iss : string) (f : client -> M A) (h : handler) : res A * handler :=
  match dget iss h with
  | None => (Err (KeyError iss), h)
  | Some cl => let (r, c) := f cl (cl_ctx cl) in (r, dset iss (set_ctx c cl) h)
  end.

(** rp_handler.py 104-121 *)
Fixpoint state2issuer (h : handler) (state : string) : res (option val) :=
  match h with
  | [] => Ok None
  | (_, cl) :: r =>
      match get_iss (sdb (cl_ctx cl)) state with
      | Err (KeyError _) => state2issuer r state
      | Err e => Err e
      | Ok i => if truthy i then Ok (Some i) else state2issuer r state
      end
  end.
(** rp_handler.py 457-458: the key under which the client is found *)
Definition client_of_session (h : handler) (state : string) : res string :=
  let! o := state2issuer h state in
  match o with
  | Some (VStr i) => if dhas i h then Ok i else Err (KeyError i)
  | Some _ => Err (KeyError "None")
  | None => Err (KeyError "None")
  end.
Definition on_session {A} (state : string) (f : client -> M A) (h : handler) : res A * handler :=
  match client_of_session h state with
  | Err e => (Err e, h)
  | Ok i => on_client i f h
  end.

(** the methods as called with a session key *)
Definition h_get_tokens W state := on_session state (fun cl => get_tokens W cl state).
Definition h_refresh W state scope := on_session state (fun cl => refresh_access_token W cl state scope).
Definition h_user_info W state tok := on_session state (fun cl => get_user_info W cl state tok).
Definition h_finalize W iss resp collect := on_client iss (fun cl => finalize W cl iss resp collect).
Definition h_active W state := on_session state (fun _ => read_db (fun d => has_active_authentication (e_now W) d state)).
Definition h_valid_token W state := on_session state (fun _ => read_db (fun d => get_valid_access_token (e_now W) d state)).
Definition h_logout W state uri := on_session state (fun cl => logout W cl state uri).
(** rp_handler.py 925-937 *)
Definition h_close W state iss uri :=
  if iss =?s "" then h_logout W state uri else on_client iss (fun cl => logout W cl state uri).
(** rp_handler.py 939-941 *)
Definition h_clear state := on_session state (fun _ => on_db (remove_state state)).

(** ** back-channel logout, rp_handler.py 944-986 *)
Definition cBCLogout : mcls :=
  {| c_sp := []; c_json := []; c_default := []; c_req := ["logout_token"]; c_par := ["logout_token"] |}.
(** [vrf c req] is BackChannelLogoutRequest.verify: it raises or adds the verified
    claims of the logout token *)
Definition bogus (e : exn) : bool :=
  match e with
  | MessageException | ValueError | JSONDecodeError | MissingRequiredAttribute | FormatError | ParameterError
  | MissingParameter => true
  | _ => false
  end.
Definition backchannel_logout (vrf : ctx -> msg -> res msg) (request : string) (args : dict val) (c : ctx)
  : res string :=
  let! req := (if request =?s "" then
                 match args with [] => Err MissingRequiredAttribute | _ => msg_new cBCLogout args end
               else msg_from_urlencoded cBCLogout request) in
  match vrf c req with
  | Err e => Err (if bogus e then MessageException else e)
  | Ok v =>
      let! lt := dict_get (verified "logout_token") v in
      match lt with
      | VDict claims =>
          let sub := dget "sub" claims in
          let sid := dget "sid" claims in
          if otruthy sub then
            match sub with Some (VStr s) => get_state_by_sub (sdb c) s | _ => Err OtherError end
          else if otruthy sid then
            match sid with Some (VStr s) => get_state_by_sid (sdb c) s | _ => Err OtherError end
          else Err MessageException
      | _ => Err AttributeError
      end
  end.
