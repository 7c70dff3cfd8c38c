(** Model of the configuration of a service (Service.__init__), of the session management
    requests and of the configuration helpers in util.py. *)
From Verif Require Import Base Json Msg M_State M_Ctx M_Codec M_Authz M_ClientAuth M_Service M_Token.

(** service.py 75-84: members of the service configuration replace the class attributes.
    Simplification: msg_type, response_cls and error_msg (classes) are left out, the other
    values are texts. *)
Definition conf_str (conf : dict val) (p dflt : string) : string := match dget p conf with Some (VStr v) => v | _ => dflt end.
(** [authn]: get_authn_method as a function of default_authn_method (service.py 306-313: the
    default itself; oidc/access_token.py 91-95: the token endpoint's method first); [dm]: the
    class's default_authn_method *)
Definition configured (authn : string -> ctx -> string) (dm : string) (s : service) : service :=
  mkservice (s_name s) (s_cls s) (s_atr s) (s_rcls s) (s_endpoint s) (s_endpoint_name s)
    (conf_str (s_conf s) "http_method" (s_http_method s))
    (conf_str (s_conf s) "request_body_type" (s_req_type s))
    (conf_str (s_conf s) "response_body_type" (s_resp_type s))
    (authn (conf_str (s_conf s) "default_authn_method" dm))
    (s_conf s) (s_defaults s) (s_pre s) (s_post s) (s_gather s) (s_extra s) (s_vrf s) (s_post_parse s) (s_update s) (s_redirect s).
Definition plain_authn (m : string) (_ : ctx) : string := m.

(** oidc/check_session.py 27-31 and oidc/check_id.py 27-31 *)
Definition session_token_pre : pre_method := fun args _ kwargs c =>
  (let! k := kw_state kwargs in
   let! a := multiple_extend_request_args (sdb c) args k ["id_token"] ["auth_response"; "token_response"; "refresh_token_response"] false in
   Ok (a, []), c).
(** oidcmsg.oidc.session: CheckSessionRequest and CheckIDRequest *)
Definition cSessionTokenRequest : mcls := {| c_sp := []; c_json := []; c_default := []; c_req := ["id_token"]; c_par := ["id_token"] |}.
Definition session_token_service (name : string) (conf : dict val) : service :=
  mkservice name cSessionTokenRequest false cMessage "" "" "GET" "urlencoded" "json"
    (fun _ => "") conf [] [session_token_pre] [] no_gather [] (fun _ m => Ok m) pass pass None.

(** util.py 409-413; [lower] and [upper] are the two spellings of the parameter *)
Definition lower_or_upper (config : dict val) (lower upper : string) (dflt : val) : val :=
  let get p := match dget p config with Some v => v | None => dflt end in
  let res := get lower in
  if truthy res then res else get upper.
(** util.py 509-522; a pair (certificate, key) is a list of two *)
Definition get_http_params (config : dict val) : dict val :=
  let ver := match dget "verify" config with
             | Some VNone | None => match dget "verify_ssl" config with Some v => v | None => VBool true end
             | Some v => v
             end in
  let params := [("verify", ver)] in
  match dget "client_cert" config with
  | Some cert =>
      if truthy cert then
        match dget "client_key" config with
        | Some key => if truthy key then dset "cert" (VList [cert; key]) params else dset "cert" cert params
        | None => dset "cert" cert params
        end
      else params
  | None => params
  end.
(** configure.py 44-54, the attributes RPConfiguration sets; [rnd]: rnd_token(32).  What
    oidcmsg's Base does with the configuration (file names, domain, port) is not modelled. *)
Record rp_configuration := mkrpconf {
  rc_key_conf : val; rc_clients : val; rc_hash_seed : val; rc_services : val; rc_base_url : val; rc_httpc_params : val }.
Definition rp_configure (rnd : string) (conf : dict val) : rp_configuration :=
  let seed := lower_or_upper conf "hash_seed" "HASH_SEED" VNone in
  let keys := lower_or_upper conf "rp_keys" "RP_KEYS" VNone in
  mkrpconf (if truthy keys then keys else lower_or_upper conf "oidc_keys" "OIDC_KEYS" VNone)
    (lower_or_upper conf "clients" "CLIENTS" VNone)
    (if truthy seed then seed else VStr rnd)
    (lower_or_upper conf "services" "SERVICES" VNone)
    (lower_or_upper conf "base_url" "BASE_URL" VNone)
    (lower_or_upper conf "httpc_params" "HTTPC_PARAMS" (VDict [("verify", VBool true)])).
