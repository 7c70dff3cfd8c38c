(** Specification vocabulary for provider information (C27, C28, C29). *)
From Verif Require Import Base Json Msg M_State M_Ctx.

(** the well-known URL of an issuer: one final slash of the issuer is dropped *)
Definition well_known (issuer u : string) : Prop :=
  exists base, u = (base ++ "/.well-known/openid-configuration")%string /\
    (issuer = (base ++ "/")%string \/ (issuer = base /\ ends_with "/" base = false)).
(** equal up to one trailing slash *)
Inductive same_issuer : string -> string -> Prop :=
| si_equal s : same_issuer s s
| si_left s : ends_with "/" s = false -> same_issuer (s ++ "/")%string s
| si_right s : ends_with "/" s = false -> same_issuer s (s ++ "/")%string.

(** which published metadata a client preference is negotiated against (OpenID Connect
    Registration section 2, Discovery section 3) *)
Definition negotiated_against : list (string * string) :=
  [("request_object_signing_alg", "request_object_signing_alg_values_supported");
   ("request_object_encryption_alg", "request_object_encryption_alg_values_supported");
   ("request_object_encryption_enc", "request_object_encryption_enc_values_supported");
   ("userinfo_signed_response_alg", "userinfo_signing_alg_values_supported");
   ("userinfo_encrypted_response_alg", "userinfo_encryption_alg_values_supported");
   ("userinfo_encrypted_response_enc", "userinfo_encryption_enc_values_supported");
   ("id_token_signed_response_alg", "id_token_signing_alg_values_supported");
   ("id_token_encrypted_response_alg", "id_token_encryption_alg_values_supported");
   ("id_token_encrypted_response_enc", "id_token_encryption_enc_values_supported");
   ("default_acr_values", "acr_values_supported");
   ("subject_type", "subject_types_supported");
   ("token_endpoint_auth_method", "token_endpoint_auth_methods_supported");
   ("token_endpoint_auth_signing_alg", "token_endpoint_auth_signing_alg_values_supported");
   ("response_types", "response_types_supported");
   ("grant_types", "grant_types_supported");
   ("scope", "scopes_supported")].
(** what a provider supports that does not publish the metadata *)
Definition standard_default : list (string * val) :=
  [("token_endpoint_auth_method", VStr "client_secret_basic"); ("id_token_signed_response_alg", VStr "RS256")].
(** the client metadata that take one value, not a list *)
Definition one_valued : list string :=
  ["application_type"; "client_name"; "logo_uri"; "client_uri"; "policy_uri"; "tos_uri"; "jwks"; "jwks_uri";
   "sector_identifier_uri"; "subject_type"; "id_token_signed_response_alg";
   "id_token_encrypted_response_alg"; "id_token_encrypted_response_enc"; "userinfo_signed_response_alg";
   "userinfo_encrypted_response_alg"; "userinfo_encrypted_response_enc"; "request_object_signing_alg";
   "request_object_encryption_alg"; "request_object_encryption_enc"; "token_endpoint_auth_method";
   "token_endpoint_auth_signing_alg"; "default_max_age"; "require_auth_time"; "initiate_login_uri";
   "frontchannel_logout_uri"; "frontchannel_logout_session_required"; "backchannel_logout_uri";
   "backchannel_logout_session_required"].
(** the values a preference offers *)
Definition options (v : val) : list val := match v with VList l => l | _ => [v] end.
(** the provider supports [x] for preference [pref]: it publishes it under [prov], or
    publishes nothing there and [x] is the standard's default if the standard has one *)
Definition supports (pcr : dict val) (pref prov : string) (x : val) : Prop :=
  match dget prov pcr with
  | Some (VList l) => In x l
  | Some _ => False
  | None => match dget pref standard_default with Some d => x = d | None => True end
  end.
(** the provider publishes a list (or nothing), the client's preference is a string or a
    list of strings, and no preferred value is a proper part of the default's name *)
Definition sensible (pcr : dict val) (pref prov : string) (vals : val) : Prop :=
  (dget prov pcr = None \/ exists l, dget prov pcr = Some (VList l)) /\
  ((exists s, vals = VStr s) \/ exists l, vals = VList l /\ Forall (fun x => exists s, x = VStr s) l) /\
  (dget prov pcr = None -> forall d s, dget pref standard_default = Some (VStr d) -> In (VStr s) (options vals) ->
     contains s d = true -> s = d).
(** parameters of a registration request that take one value *)
Definition single_valued (pref : string) : Prop := In pref one_valued.
(** what negotiation should give for one preference *)
Inductive negotiated (pcr : dict val) (pref prov : string) (vals : val) : option val -> Prop :=
| neg_list l f : vals = VList l -> ~ single_valued pref ->
    (forall x, In x l -> f x = true <-> supports pcr pref prov x) ->
    negotiated pcr pref prov vals (Some (VList (filter f l)))
| neg_one l1 x l2 : (forall l, vals = VList l -> single_valued pref) -> options vals = l1 ++ x :: l2 ->
    Forall (fun y => ~ supports pcr pref prov y) l1 -> supports pcr pref prov x ->
    negotiated pcr pref prov vals (Some x)
| neg_none : (forall l, vals = VList l -> single_valued pref) ->
    Forall (fun y => ~ supports pcr pref prov y) (options vals) -> negotiated pcr pref prov vals None.

(** keys in configured provider information (rp_handler.py 229-243): by URL, for the issuer
    named with the URL, or in a file, for the provider itself *)
Definition usable_keys (pi : dict val) : Prop :=
  forall v, dget "keys" pi = Some v ->
  exists specs, v = VDict specs /\
    forall typ spec, In (typ, spec) specs -> (typ = "url" \/ typ = "file") /\ exists d, spec = VDict d.
