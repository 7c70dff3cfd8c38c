(** Specification for C74: logging in at a provider of which only the issuer is known. *)
From Verif Require Import Base Json Msg M_State M_Ctx M_Service M_Token M_Handler M_Provider S_Provider M_Registration M_WebFinger M_Setup
  S_Traffic.

(** the configuration names the issuer and nothing else about the provider (no provider
    information, no leave to accept another issuer, no address of its own for discovery) *)
Definition only_issuer (cnf : dict val) (iss : string) : Prop :=
  sub_dict "provider_info" cnf = [] /\ dget "issuer" cnf = Some (VStr iss) /\
  dhas "issuer_mismatch" (sub_dict "allow" cnf) = false /\ dget "srv_discovery_url" cnf = None.
(** the handler has no client for [iss] yet; [cnf] is its configuration for it, or the default
    configuration with that issuer *)
Definition first_visit (iss : string) (cnf : dict val) (s : hstate) : Prop :=
  iss <> "" /\ dget iss (hs_rps s) = None /\ only_issuer cnf iss /\
  match dget iss (hs_cfgs s) with
  | Some c => cnf = c
  | None => exists c, dget "" (hs_cfgs s) = Some c /\ cnf = dset "issuer" (VStr iss) c
  end.

(** the answer is a JSON object: this one *)
Definition says (cls : mcls) (resp : http_resp) (m : msg) : Prop :=
  h_ctype resp = Some "application/json" ->
  forall d m', json_loads (h_text resp) = Some (VDict d) -> msg_new cls d = Ok m' -> m = m'.
(** [m] is the metadata of [iss]: what its well-known URL answered, verified, with that issuer
    in it (up to a slash); the answer may be marked with its status *)
Definition published (W : env) (iss : string) (m : msg) : Prop :=
  exists u resp c m0 m1, well_known iss u /\ e_http W u "GET" None [] = Ok resp /\ says cMessage resp m0 /\
    e_vrf W "provider_info" c m0 = Ok m1 /\ (m = m1 \/ m = dset "status_code" (VInt (h_status resp)) m1) /\
    dhas "error" m = false /\ exists i, dget "issuer" m = Some (VStr i) /\ same_issuer i iss.
(** [id] is the identifier that the registration endpoint in that metadata gave the client *)
Definition registered (W : env) (m : msg) (id : string) : Prop :=
  exists ep b h resp c m0 m1, dget "registration_endpoint" m = Some (VStr ep) /\ e_http W ep "POST" b h = Ok resp /\
    says cMessage resp m0 /\ e_vrf W "registration" c m0 = Ok m1 /\ dget "client_id" m1 = Some (VStr id).
(** the client's identifier: configured, else registered, else none *)
Definition identity (W : env) (cnf : dict val) (m : msg) (id : string) : Prop :=
  match dget "client_id" cnf with
  | Some (VStr s) => if s =?s "" then registered W m id \/ id = "" else id = s
  | _ => registered W m id \/ id = ""
  end.
(** neither the caller nor the configuration puts [p] into requests *)
Definition not_chosen (cnf reqs : dict val) (p : string) : Prop :=
  dget p reqs = None /\ forall d, dget "request_args" cnf = Some (VDict d) -> dget p d = None.
(** the requests a login at the provider with metadata [m] may make *)
Definition to_provider (m : msg) (u meth : string) : Prop :=
  (meth = "POST" /\ dget "token_endpoint" m = Some (VStr u)) \/
  (meth = "GET" /\ exists ep, dget "userinfo_endpoint" m = Some (VStr ep) /\ same_address u ep).
