(** Model of logins with the plain OAuth2 services (oauth2/authorization.py,
    oauth2/access_token.py) and with those of provider/github.py and
    provider/linkedin.py.  The handler's functions (rp_handler.py) are those of M_Handler.v
    with the client's service objects as parameters. *)
From Verif Require Import Base Json Msg M_State M_Ctx M_Codec M_Authz M_ClientAuth M_Service M_Token M_Handler.

(** the service objects a login uses; the client has a user info service when
    [has_service cl "userinfo"] *)
Record parts := mkparts { pt_authz : service; pt_token : service; pt_userinfo : service }.

(** rp_handler.py 362-423 with authorization service [s] *)
Definition init_authorization_with (s : service) (W : env) (reqs : dict val) (beh : option (dict val))
  : M (string * string) :=
  args <- (fun c => (authz_request_args W c reqs, c)) ;;
  iss <- asks issuer ;;
  st <- on_db (create_state (e_state W) iss "") ;;
  on_db (store_nonce2state (e_nonce W) st) ;;;
  i <- get_request_parameters (e_authn W) s (dset "state" (VStr st) args) "" "" ""
         (match beh with Some b => [("behaviour_args", VDict b)] | None => [] end) ;;
  ret (i_url i, st).

(** rp_handler.py 620-664 with authorization service [s] *)
Definition finalize_auth_with (s : service) (iss : string) (response : dict val) : M msg :=
  match msg_new (s_rcls s) response with
  | Err e => raise e
  | Ok resp0 =>
      resp <- parse_deserialised (s_vrf s) (s_post_parse s) resp0 "" ;;
      if is_error_message resp then ret resp
      else
        match dget "state" resp with
        | Some (VStr st) => fun c =>
            match get_iss (sdb c) st with
            | Err (KeyError _) => (Err (KeyError "Unknown state value"), c)
            | Err e => (Err e, c)
            | Ok i =>
                if val_eqb i (VStr iss) then
                  (r <- s_update s resp st ;;
                   on_db (store_item (IMsg (s_rcls s) r) "auth_response" st) ;;;
                   ret r) c
                else (Err ValueError, c)
            end
        | Some _ => raise (KeyError "Unknown state value")
        | None => raise (KeyError "Unknown state value")
        end
  end.

(** rp_handler.py 492-535 with token service [s]; 503-506: both messages are read with the
    OIDC classes, whatever class wrote them *)
Definition get_tokens_with (s : service) (W : env) (cl : client) (state : string) : M response :=
  fun c =>
  match (let! ar := get_item (sdb c) cAuthzResponse "auth_response" state in
         let! rq := get_item (sdb c) cAuthzRequest "auth_request" state in
         let! code := dict_get "code" ar in
         let! ru := dict_get "redirect_uri" rq in
         let! am := client_authn_method c in
         Ok ([("code", code); ("state", VStr state); ("redirect_uri", ru);
              ("grant_type", VStr "authorization_code"); ("client_id", VStr (client_id c));
              ("client_secret", VStr (client_secret c))], am)) with
  | Err e => (Err e, c)
  | Ok (args, am) =>
      (r <- do_request_named W cl s args am [("state", VStr state)] ;;
       if is_error_response r then raise OidcServiceError else ret r) c
  end.
(** rp_handler.py 575-605 with user info service [s] *)
Definition get_user_info_with (s : service) (W : env) (cl : client) (state access_token : string) : M response :=
  (if access_token =?s ""
   then read_db (fun d => multiple_extend_request_args d [] state ["access_token"] token_items false) ;;; ret tt
   else ret tt) ;;;
  r <- do_request_named W cl s [("access_token", VStr access_token)] "" [("state", VStr state)] ;;
  if is_error_response r then raise OidcServiceError else ret r.

(** rp_handler.py 666-735 *)
Definition tokens_from_endpoint_with (s : service) (W : env) (cl : client) (state : string) : M tokens :=
  r <- get_tokens_with s W cl state ;;
  a <- lift (dict_get "access_token" (msg_of r)) ;;
  ret (mktokens a (val_or_none (dget (verified "id_token") (msg_of r)))).
Definition get_access_and_id_token_with (s : service) (W : env) (cl : client) (resp : msg) (state : string)
  (collect : bool) : M tokens :=
  rq <- read_db (fun d => get_item d cAuthzRequest "auth_request" state) ;;
  rt <- lift (match dget "response_type" rq with
              | Some (VList l) => Ok l
              | Some _ => Err TypeError
              | None => Err (KeyError "response_type")
              end) ;;
  idt <- lift (if one_of rt [["id_token"]; ["id_token"; "token"]; ["code"; "id_token"; "token"]]
               then dict_get (verified "id_token") resp else Ok VNone) ;;
  if one_of rt [["token"]; ["id_token"; "token"]; ["code"; "token"]; ["code"; "id_token"; "token"]] then
    at_ <- lift (dict_get "access_token" resp) ;;
    if collect then tokens_from_endpoint_with s W cl state
    else ret (mktokens at_ idt)
  else if one_of rt [["code"]; ["code"; "id_token"]] then tokens_from_endpoint_with s W cl state
  else ret (mktokens VNone idt).

(** rp_handler.py 738-821 *)
Definition finalize_with (P : parts) (W : env) (cl : client) (iss : string) (response : dict val) (collect : bool)
  : M final :=
  ar <- finalize_auth_with (pt_authz P) iss response ;;
  if is_error_message ar then
    s <- lift (dict_get "state" ar) ;; e <- lift (dict_get "error" ar) ;; ret (FError s e)
  else
    match dget "state" ar with
    | Some (VStr st) =>
        t <- get_access_and_id_token_with (pt_token P) W cl ar st collect ;;
        info <- (if has_service cl "userinfo" && truthy (t_access t) then
                   match t_access t with
                   | VStr a => r <- get_user_info_with (pt_userinfo P) W cl st a ;; ret (msg_of r)
                   | _ => raise OtherError
                   end
                 else match t_id t with
                      | VDict (kv :: r) => ret (userinfo_in_id_token (kv :: r))
                      | _ => ret []
                      end) ;;
        bind_subject (t_id t) info st ;;;
        ret (FOk info (VStr st) (t_access t) (t_id t)
               (match dget "session_state" ar with Some v => v | None => VStr "" end))
    | _ => raise (KeyError "state")
    end.

(** with the OIDC services these are the functions of M_Handler.v *)
Definition oidc_parts (W : env) (cl : client) : parts := mkparts (authz_svc W cl) (token_svc W cl) (userinfo_svc W cl).
Lemma init_with_oidc W cl : init_authorization_with (authz_svc W cl) W = init_authorization W cl.
Proof. reflexivity. Qed.
Lemma finalize_auth_with_oidc W cl : finalize_auth_with (authz_svc W cl) = finalize_auth (e_vrf W "authorization") (e_now W).
Proof. reflexivity. Qed.
Lemma get_tokens_with_oidc W cl : get_tokens_with (token_svc W cl) W cl = get_tokens W cl.
Proof. reflexivity. Qed.
Lemma user_info_with_oidc W cl : get_user_info_with (userinfo_svc W cl) W cl = get_user_info W cl.
Proof. reflexivity. Qed.
Lemma finalize_with_oidc W cl : finalize_with (oidc_parts W cl) W cl = finalize W cl.
Proof. reflexivity. Qed.

(** ** the response classes of the two providers *)
(** provider/github.py 10-18 *)
Definition cGitHubToken : mcls :=
  {| c_sp := []; c_json := []; c_default := []; c_req := ["access_token"; "token_type"];
     c_par := ["access_token"; "token_type"; "scope"] |}.
(** provider/linkedin.py 12-19 *)
Definition cLinkedInToken : mcls :=
  {| c_sp := []; c_json := []; c_default := []; c_req := ["access_token"; "expires_in"]; c_par := ["access_token"; "expires_in"] |}.
(** provider/linkedin.py 22-29 *)
Definition cLinkedInUser : mcls :=
  {| c_sp := []; c_json := ["siteStandardProfileRequest"]; c_default := []; c_req := ["id"];
     c_par := ["firstName"; "headline"; "id"; "lastName"; "siteStandardProfileRequest"] |}.

(** oauth2/access_token.py 32-35 for a given response class *)
Definition store_token_of (cls : mcls) (now : Z) (resp : msg) (key : string) : M msg :=
  match add_expires_at now resp with
  | Err e => raise e
  | Ok r => on_db (store_item (IMsg cls r) "token_response" key) ;;; ret r
  end.
(** oauth2/access_token.py 14-63; provider/github.py 21-25 and provider/linkedin.py 32-35
    change the response class and the expected format of the answer *)
Definition token_service_of (cls : mcls) (format : string) (vrf : ctx -> msg -> res msg) (now : Z) (conf : dict val) : service :=
  mkservice "accesstoken" cTokenRequest true cls "" "token_endpoint" "POST" "urlencoded" format
    (fun _ => "client_secret_basic") conf [] [token_pre (c_par cTokenRequest)] [] no_gather [] vrf pass
    (store_token_of cls now) (Some TypeError).

(** oidc/userinfo.py 62-114 for a given response class; [hdr]: the authorization header that
    98-107 builds (and drops) for a distributed claim may fail *)
Definition userinfo_post_parse_of (cls : mcls) (hdr : ctx -> string -> res unit) (agg : agg_oracle) (resp : msg)
  (state : string) : M msg :=
  args <- read_db (fun d => multiple_extend_request_args d [] state ["id_token"] token_items false) ;;
  lift (check_sub args resp) ;;;
  resp' <- (fun c => (match dget "_claim_sources" resp with
                      | None => Ok resp
                      | Some (VDict src) => aggregate agg (hdr c state) src resp
                      | Some _ => Err AttributeError
                      end, c)) ;;
  on_db (store_item (IMsg cls resp') "user_info" state) ;;;
  ret resp'.
(** oidc/userinfo.py 33-47; provider/github.py 28-32 (no authentication method: nothing
    takes the access token out of the request, and no header is built) and
    provider/linkedin.py 38-39 *)
Definition userinfo_service_of (cls : mcls) (authn : string) (vrf : ctx -> msg -> res msg) (agg : agg_oracle)
  (conf : dict val) : service :=
  mkservice "userinfo" cMessage false cls "" "userinfo_endpoint" "GET" "urlencoded" "json"
    (fun _ => authn) conf [] [userinfo_pre; carry_state] [] no_gather [] vrf
    (userinfo_post_parse_of cls (if authn =?s "" then fun _ _ => Ok tt else unused_header) agg) pass None.

(** ** the service sets of plain OAuth2, GitHub and LinkedIn clients *)
Inductive provider := PlainOAuth2 | GitHub | LinkedIn.
Definition token_class (p : provider) : mcls :=
  match p with PlainOAuth2 => cTokenResponse | GitHub => cGitHubToken | LinkedIn => cLinkedInToken end.
Definition token_format (p : provider) : string := match p with GitHub => "urlencoded" | _ => "json" end.
Definition user_class (p : provider) : mcls := match p with LinkedIn => cLinkedInUser | _ => cMessage end.
Definition user_authn (p : provider) : string := match p with GitHub => "" | _ => "bearer_header" end.

Definition oauth_authz_svc (W : env) (cl : client) : service :=
  oauth2_authz_service (e_vrf W "authorization") (e_now W) (conf_of cl "authorization")
    (if cl_pkce cl then [add_code_challenge (e_hash W) (unreserved (e_rand W))] else []).
Definition oauth_token_svc (p : provider) (W : env) (cl : client) : service :=
  let s := token_service_of (token_class p) (token_format p) (e_vrf W "accesstoken") (e_now W) (conf_of cl "accesstoken") in
  if cl_pkce cl then with_pkce s else s.
Definition oauth_userinfo_svc (p : provider) (W : env) (cl : client) : service :=
  userinfo_service_of (user_class p) (user_authn p) (e_vrf W "userinfo") (e_agg W) (conf_of cl "userinfo").
Definition oauth_parts (p : provider) (W : env) (cl : client) : parts :=
  mkparts (oauth_authz_svc W cl) (oauth_token_svc p W cl) (oauth_userinfo_svc p W cl).

(** the methods of a handler whose client for [iss] is of that kind *)
Definition oauth_init (W : env) (cl : client) := init_authorization_with (oauth_authz_svc W cl) W.
Definition oauth_finalize_auth (W : env) (cl : client) := finalize_auth_with (oauth_authz_svc W cl).
Definition oauth_tokens (p : provider) (W : env) (cl : client) := get_tokens_with (oauth_token_svc p W cl) W cl.
Definition oauth_user_info (p : provider) (W : env) (cl : client) := get_user_info_with (oauth_userinfo_svc p W cl) W cl.
Definition oauth_finalize (p : provider) (W : env) (cl : client) := finalize_with (oauth_parts p W cl) W cl.
