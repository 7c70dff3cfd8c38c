(** Where the HTTP requests of a client go. *)
From Verif Require Import Base Json Msg M_State S_State M_Ctx M_Codec M_Authz M_ClientAuth M_Service M_Token M_Handler
  S_Token S_Handler S_Flow S_Trace S_Sched S_Route S_Multi.

(** two URLs with the same address: the same up to query and fragment *)
Definition same_address (u v : string) : Prop := u_base (urlsplit u) = u_base (urlsplit v).
(** the provider of [c] has published [ep] as its [name] *)
Definition has_published (c : ctx) (name ep : string) : Prop := dget name (provider_info c) = Some (VStr ep).
(** the requests a client may make: a POST to the token endpoint, a GET at the UserInfo
    endpoint, both of its own provider *)
Definition to_token_endpoint (c : ctx) (u m : string) : Prop := m = "POST" /\ has_published c "token_endpoint" u.
Definition to_userinfo_endpoint (c : ctx) (u m : string) : Prop :=
  m = "GET" /\ exists ep, has_published c "userinfo_endpoint" ep /\ same_address u ep.
Definition to_own_provider (c : ctx) (u m : string) : Prop := to_token_endpoint c u m \/ to_userinfo_endpoint c u m.
(** [P], whatever the body and the headers *)
Definition whatever (P : string -> string -> Prop) : string -> string -> option body -> headers -> Prop := fun u m _ _ => P u m.

(** a call with another HTTP peer *)
Definition call_at (http : http_client) (o : call) : call :=
  match o with
  | CInit W reqs beh => CInit (with_http W http) reqs beh
  | CFinalize W iss resp collect => CFinalize (with_http W http) iss resp collect
  | CFinalizeAuth W iss resp => CFinalizeAuth (with_http W http) iss resp
  | CTokens W st => CTokens (with_http W http) st
  | CRefresh W st scope => CRefresh (with_http W http) st scope
  | CUserInfo W st tok => CUserInfo (with_http W http) st tok
  | CLogout W st uri => CLogout (with_http W http) st uri
  | CClear st => CClear st
  end.
Definition hcall_at_peer (http : http_client) (o : hcall) : hcall :=
  match o with
  | HInit W iss reqs beh => HInit (with_http W http) iss reqs beh
  | HFinalize W iss resp collect => HFinalize (with_http W http) iss resp collect
  | HFinalizeAuth W iss resp => HFinalizeAuth (with_http W http) iss resp
  | HTokens W st => HTokens (with_http W http) st
  | HRefresh W st scope => HRefresh (with_http W http) st scope
  | HUserInfo W st tok => HUserInfo (with_http W http) st tok
  | HLogout W st uri => HLogout (with_http W http) st uri
  | HClose W st iss uri => HClose (with_http W http) st iss uri
  | HClear st => HClear st
  end.
(** two peers that answer the same to the requests in [P] *)
Definition agree_on (P : string -> string -> Prop) (http1 http2 : http_client) : Prop :=
  forall u m b h, P u m -> http1 u m b h = http2 u m b h.

(** ** setting up a client *)
From Verif Require Import M_Provider S_Provider M_Registration M_WebFinger M_Setup.
(** the issuer a configuration is for: its own member, or the one in its provider information *)
Definition configured_issuer (cnf : dict val) (i : string) : Prop :=
  let pi := sub_dict "provider_info" cnf in
  match dget "issuer" cnf with Some (VStr s) => if s =?s "" then i = str_of (dget "issuer" pi) else i = s | _ => i = str_of (dget "issuer" pi) end.
(** a link of a WebFinger answer that has passed verification leads to [i] *)
Definition webfinger_link (W : env) (i : string) : Prop :=
  exists c m0 jrd v l link, e_vrf W "webfinger" c m0 = Ok jrd /\ dget "links" jrd = Some v /\ (v = VList l) /\ In (VDict link) l /\
    dget "href" link = Some (VStr i).
(** the issuers whose metadata may be asked for *)
Definition issuer_asked (W : env) (iss : string) (cnf : dict val) (i : string) : Prop :=
  match dget "srv_discovery_url" cnf with
  | Some (VStr d) => i = d
  | _ => configured_issuer cnf i \/ (iss = "" /\ webfinger_link W i)
  end.
(** the metadata of the provider: configured, or verified after they came from the
    well-known URL *)
Definition metadata_of (W : env) (iss : string) (cnf md : dict val) : Prop :=
  (sub_dict "provider_info" cnf <> [] /\ md = sub_dict "provider_info" cnf) \/
  (sub_dict "provider_info" cnf = [] /\ exists i u resp c m0 md0, issuer_asked W iss cnf i /\ well_known i u /\
     e_http W u "GET" None [] = Ok resp /\ e_vrf W "provider_info" c m0 = Ok md0 /\
     (md = md0 \/ exists z, md = dset "status_code" (VInt z) md0)).
Inductive setup_request (W : env) (H : hconf) (iss user : string) (cnf : dict val) : string -> string -> Prop :=
| sr_webfinger u : iss = "" -> query (hc_nok H) user = Ok u -> setup_request W H iss user cnf u "GET"
| sr_discovery i u : sub_dict "provider_info" cnf = [] -> issuer_asked W iss cnf i -> well_known i u ->
    setup_request W H iss user cnf u "GET"
| sr_registration md u : client_id (new_ctx (hc_base H) (hc_jwks_uri H) cnf) = "" -> metadata_of W iss cnf md ->
    dget "registration_endpoint" md = Some (VStr u) -> setup_request W H iss user cnf u "POST".
