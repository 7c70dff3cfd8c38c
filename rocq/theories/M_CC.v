(** Model of the client credentials grant: oauth2/client_credentials/cc_access_token.py and
    cc_refresh_access_token.py. *)
From Verif Require Import Base Json Msg M_State M_Ctx M_Codec M_Authz M_ClientAuth M_Service M_Token.

(** oidcmsg.oauth2.CCAccessTokenRequest *)
Definition cCCTokenRequest : mcls :=
  {| c_sp := ["scope"]; c_json := []; c_default := [("grant_type", VStr "client_credentials")];
     c_req := ["grant_type"]; c_par := ["grant_type"; "scope"] |}.
(** cc_access_token.py 8-27.  The update (24-27) is that of the other token services; its
    own default for the key, 'cc', is never used by Client.service_request. *)
Definition cc_token_service (vrf : ctx -> msg -> res msg) (now : Z) (conf : dict val) : service :=
  mkservice "accesstoken" cCCTokenRequest false cTokenResponse "" "token_endpoint" "POST" "urlencoded" "json"
    (fun _ => "client_secret_basic") conf [] [] [] no_gather [] vrf pass (store_token_response now) (Some TypeError).
(** cc_refresh_access_token.py 24-41 *)
Definition cc_refresh_pre : pre_method := fun args post kwargs c =>
  (let! k := key_arg (match dget "state" kwargs with Some v => v | None => VStr "cc" end) in
   let! a := extend_request_args (sdb c) [] cTokenResponse "token_response" k ["refresh_token"] false in
   let! a := extend_request_args (sdb c) a cTokenResponse "refresh_token_response" k ["refresh_token"] false in
   Ok (dupdate a args, post), c).
(** cc_refresh_access_token.py 43-50 *)
Definition cc_refresh_post : post_method := fun req _ => ret (ddel "client_secret" (ddel "client_id" req)).
(** cc_refresh_access_token.py 8-22, 52-55 *)
Definition cc_refresh_service (vrf : ctx -> msg -> res msg) (now : Z) (conf : dict val) : service :=
  mkservice "refresh_token" cRefreshRequest false cTokenResponse "" "token_endpoint" "POST" "urlencoded" "json"
    (fun _ => "bearer_header") conf [] [cc_refresh_pre] [cc_refresh_post] no_gather [] vrf pass (store_token_response now) (Some TypeError).

(** Client.do_request with these services (oauth2/__init__.py 80-99); [st]: the state
    keyword, if given *)
Definition state_kw (st : option string) : dict val := match st with Some k => [("state", VStr k)] | None => [] end.
Definition cc_tokens (E : authn_env) (http : http_client) (jwt : jwt_oracle) (vrf : ctx -> msg -> res msg) (now : Z) (conf : dict val)
  (args : dict val) (st : option string) : M response :=
  do_request E http jwt (cc_token_service vrf now conf) "" args "" (state_kw st).
Definition cc_refresh (E : authn_env) (http : http_client) (jwt : jwt_oracle) (vrf : ctx -> msg -> res msg) (now : Z) (conf : dict val)
  (args : dict val) (st : option string) : M response :=
  do_request E http jwt (cc_refresh_service vrf now conf) "" args "" (state_kw st).
