(** Model of provider information discovery: oauth2/provider_info_discovery.py,
    oidc/provider_info_discovery.py, oauth2/__init__.py 272-293 and
    rp_handler.py 189-247 (do_provider_info). *)
From Verif Require Import Base Json Msg M_State M_Ctx M_Codec M_Authz M_ClientAuth M_Service M_Token M_Handler.

(** oidcmsg.oidc.RegistrationRequest.c_param: parameter name, list valued? (trusted
    description of oidcmsg) *)
Definition registration_params : list (string * bool) :=
  [("redirect_uris", true); ("response_types", true); ("grant_types", true); ("application_type", false);
   ("contacts", true); ("client_name", false); ("logo_uri", false); ("client_uri", false); ("policy_uri", false);
   ("tos_uri", false); ("jwks", false); ("jwks_uri", false); ("sector_identifier_uri", false); ("subject_type", false);
   ("id_token_signed_response_alg", false); ("id_token_encrypted_response_alg", false);
   ("id_token_encrypted_response_enc", false); ("userinfo_signed_response_alg", false);
   ("userinfo_encrypted_response_alg", false); ("userinfo_encrypted_response_enc", false);
   ("request_object_signing_alg", false); ("request_object_encryption_alg", false);
   ("request_object_encryption_enc", false); ("token_endpoint_auth_method", false);
   ("token_endpoint_auth_signing_alg", false); ("default_max_age", false); ("require_auth_time", false);
   ("default_acr_values", true); ("initiate_login_uri", false); ("request_uris", true);
   ("post_logout_redirect_uris", true); ("frontchannel_logout_uri", false);
   ("frontchannel_logout_session_required", false); ("backchannel_logout_uri", false);
   ("backchannel_logout_session_required", false)].

(** oidc/provider_info_discovery.py 13-38 *)
Definition PREFERENCE2PROVIDER : list (string * string) :=
  [("request_object_signing_alg", "request_object_signing_alg_values_supported");
   ("request_object_encryption_alg", "request_object_encryption_alg_values_supported");
   ("request_object_encryption_enc", "request_object_encryption_enc_values_supported");
   ("userinfo_signed_response_alg", "userinfo_signing_alg_values_supported");
   ("userinfo_encrypted_response_alg", "userinfo_encryption_alg_values_supported");
   ("userinfo_encrypted_response_enc", "userinfo_encryption_enc_values_supported");
   ("id_token_signed_response_alg", "id_token_signing_alg_values_supported");
   ("id_token_encrypted_response_alg", "id_token_encryption_alg_values_supported");
   ("id_token_encrypted_response_enc", "id_token_encryption_enc_values_supported");
   ("default_acr_values", "acr_values_supported");
   ("subject_type", "subject_types_supported");
   ("token_endpoint_auth_method", "token_endpoint_auth_methods_supported");
   ("token_endpoint_auth_signing_alg", "token_endpoint_auth_signing_alg_values_supported");
   ("response_types", "response_types_supported");
   ("grant_types", "grant_types_supported");
   ("scope", "scopes_supported")].
(** 42-45 *)
Definition PROVIDER_DEFAULT : list (string * val) :=
  [("token_endpoint_auth_method", VStr "client_secret_basic"); ("id_token_signed_response_alg", VStr "RS256")].

(** Python's [x in v] *)
Definition in_val (x v : val) : res bool :=
  match v with
  | VList l => Ok (existsb (val_eqb x) l)
  | VStr s => match x with VStr y => Ok (contains y s) | _ => Err TypeError end
  | VDict d => match x with VStr y => Ok (dhas y d) | VList _ | VDict _ => Err TypeError | _ => Ok false end
  | _ => Err TypeError
  end.
(** iteration over a value: [for x in v] *)
Fixpoint chars (s : string) : list val :=
  match s with EmptyString => [] | String a r => VStr (String a "") :: chars r end.
Definition iter_val (v : val) : res (list val) :=
  match v with
  | VList l => Ok l
  | VStr s => Ok (chars s)
  | VDict d => Ok (map VStr (dkeys d))
  | _ => Err TypeError
  end.
Fixpoint filter_in (l : list val) (p : val) : res (list val) :=
  match l with
  | [] => Ok []
  | x :: r => let! b := in_val x p in let! t := filter_in r p in Ok (if b then x :: t else t)
  end.
Fixpoint first_in (l : list val) (p : val) : res (option val) :=
  match l with
  | [] => Ok None
  | x :: r => let! b := in_val x p in if b then Ok (Some x) else first_in r p
  end.

(** 119-130: what the provider supports *)
Definition provider_values (pref prov : string) (vals : val) (pcr : dict val) : val :=
  match dget prov pcr with
  | Some v => v
  | None => match dget pref PROVIDER_DEFAULT with Some v => v | None => vals end
  end.
(** 132-155: the value chosen for a preference, if any *)
Definition choose (pref : string) (vals pvals : val) : res (option val) :=
  match vals with
  | VStr _ => let! b := in_val vals pvals in Ok (if b then Some vals else None)
  | _ =>
      match dget pref registration_params with
      | None => match vals with
                | VList l => let! r := filter_in l pvals in Ok (Some (VList r))
                | _ => let! b := in_val vals pvals in Ok (if b then Some vals else None)
                end
      | Some true => let! l := iter_val vals in let! r := filter_in l pvals in Ok (Some (VList r))
      | Some false => let! l := iter_val vals in first_in l pvals
      end
  end.
(** 113-158, one round.  Simplification: when iterating or [in] raises TypeError in the
    list valued case, the empty list already assigned is not modelled. *)
Definition match_one (pcr : dict val) (pp : string * string) : M unit := fun c =>
  match dget (fst pp) (client_preferences c) with
  | None => (Ok tt, c)
  | Some vals =>
      match choose (fst pp) vals (provider_values (fst pp) (snd pp) vals pcr) with
      | Err e => (Err e, c)
      | Ok o =>
          let b := match o with Some v => dset (fst pp) v (behaviour c) | None => behaviour c end in
          (if dhas (fst pp) b then Ok tt else Err ConfigurationError, set_behaviour b c)
      end
  end.
Fixpoint match_all (pcr : dict val) (l : list (string * string)) : M unit :=
  match l with [] => ret tt | pp :: r => match_one pcr pp ;;; match_all pcr r end.
(** 160-173, one round *)
Definition adopt_one (kv : string * val) : M unit := fun c =>
  if dhas (fst kv) (behaviour c) then (Ok tt, c)
  else
    match (match dget (fst kv) registration_params, snd kv with
           | Some false, VList [] => Err IndexError
           | Some false, VList (x :: _) => Ok x
           | _, v => Ok v
           end) with
    | Err e => (Err e, c)
    | Ok v => (Ok tt, if dhas (fst kv) PREFERENCE2PROVIDER then c else set_behaviour (dset (fst kv) v (behaviour c)) c)
    end.
Fixpoint adopt_all (l : dict val) : M unit :=
  match l with [] => ret tt | kv :: r => adopt_one kv ;;; adopt_all r end.
(** 92-176 *)
Definition match_preferences (pcr : dict val) : M unit :=
  p <- asks (fun c => match pcr with [] => provider_info c | _ => pcr end) ;;
  match_all p PREFERENCE2PROVIDER ;;;
  l <- asks client_preferences ;;
  adopt_all l.

(** ** the service objects' endpoints and the keys loaded for issuers *)
(** service name, endpoint_name, endpoint ("" when not set) *)
Record sep := mksep { sep_name : string; sep_ename : string; sep_url : val }.
(** where keys come from: a URL, a JWKS by value, a JWKS file, a PEM file, a secret *)
Inductive ksrc := SUrl (u : val) | SJwks (j : val) | SFile (f : val) | SPem (f : val) | SSecret (s : string).
(** a key jar: owner (issuer or client id; "" is the client itself) and source, in the order
    added.  Simplification: what a source yields when it is read is not modelled, and a file
    that cannot be read is not either. *)
Definition jar := list (string * ksrc).
(** the context of a client, its services' endpoints and its key jar *)
Record pstate := mkp { p_ctx : ctx; p_eps : list sep; p_keys : jar }.

(** oauth2/provider_info_discovery.py 28-42 *)
Definition strip_slash (s : string) : string :=
  if ends_with "/" s then srev (drop 1 (srev s)) else s.
Definition discovery_url (c : ctx) : string := (strip_slash (issuer c) ++ "/.well-known/openid-configuration")%string.

(** 54-76 *)
Definition verify_issuer (pcr_issuer : val) (c : ctx) : res string :=
  match pcr_issuer with
  | VStr p =>
      let iss := if ends_with "/" p
                 then if ends_with "/" (issuer c) then issuer c else (issuer c ++ "/")%string
                 else strip_slash (issuer c) in
      if dhas "issuer_mismatch" (allow c) then Ok iss
      else if iss =?s p then Ok iss else Err OidcServiceError
  | _ => Err AttributeError
  end.

(** entity.py 71-76 and oauth2/provider_info_discovery.py 78-89: only the first service with that endpoint name *)
Fixpoint set_first (ename : string) (v : val) (l : list sep) : list sep :=
  match l with
  | [] => []
  | s :: r => if sep_ename s =?s ename then mksep (sep_name s) (sep_ename s) v :: r else s :: set_first ename v r
  end.
Definition set_endpoints (resp : dict val) (l : list sep) : list sep :=
  fold_left (fun acc kv => if ends_with "_endpoint" (fst kv) then set_first (fst kv) (snd kv) acc else acc) resp l.
(** rp_handler.py 216-227: every service with that endpoint name *)
Definition set_all (resp : dict val) (l : list sep) : list sep :=
  fold_left (fun acc kv => if ends_with "_endpoint" (fst kv)
                           then map (fun s => if sep_ename s =?s fst kv then mksep (sep_name s) (sep_ename s) (snd kv) else s) acc
                           else acc) resp l.
(** service.py 270-279 *)
Definition endpoint_of (s : sep) (c : ctx) : res val :=
  if truthy (sep_url s) then Ok (sep_url s) else dict_get (sep_ename s) (provider_info c).

(** oauth2/provider_info_discovery.py 91-127 *)
Definition update_provider_info (resp : dict val) (p : pstate) : res unit * pstate :=
  match (match dget "issuer" resp with Some i => verify_issuer i (p_ctx p) | None => Ok (issuer (p_ctx p)) end) with
  | Err e => (Err e, p)
  | Ok iss =>
      (Ok tt, mkp (set_provider_info resp (set_issuer iss (p_ctx p))) (set_endpoints resp (p_eps p))
                (match dget "jwks_uri" resp with
                 | Some u => p_keys p ++ [(iss, SUrl u)]
                 | None => match dget "jwks" resp with Some j => p_keys p ++ [(iss, SJwks j)] | None => p_keys p end
                 end))
  end.
(** oidc/provider_info_discovery.py 82-90 (the logging of preloaded keys is left out) *)
Definition oidc_update_provider_info (resp : dict val) (p : pstate) : res unit * pstate :=
  match update_provider_info resp p with
  | (Err e, p1) => (Err e, p1)
  | (Ok _, p1) => let (r, c) := match_preferences resp (p_ctx p1) in (r, mkp c (p_eps p1) (p_keys p1))
  end.

(** the service object used to parse the answer *)
Definition provider_info_service (vrf : ctx -> msg -> res msg) (conf : dict val) : service :=
  mkservice "provider_info" cMessage false cMessage "" "" "GET" "urlencoded" "json" (fun _ => "") conf []
    [] [] (fun a _ => Ok a) [] vrf (fun m _ => ret m) (fun m _ => ret m) None.

(** oauth2/__init__.py 272-293 with 79-190: discovery.  The answer to a redirect is a
    dictionary holding the HTTP response. *)
Definition dynamic_discovery (W : env) (p : pstate) : res unit * pstate :=
  let c := match dget "srv_discovery_url" (config (p_ctx p)) with
           | Some (VStr u) => set_issuer u (p_ctx p)
           | _ => p_ctx p
           end in
  if existsb (fun s => sep_name s =?s "provider_info") (p_eps p) then
    match get_response (e_http W) (e_jwt W) (provider_info_service (e_vrf W "provider_info") [])
            (discovery_url c) "GET" None "json" [] "" c with
    | (Err e, c1) => (Err e, mkp c1 (p_eps p) (p_keys p))
    | (Ok (RMsg m), c1) =>
        if dhas "error" m then (Err OidcServiceError, mkp c1 (p_eps p) (p_keys p))
        else oidc_update_provider_info m (mkp c1 (p_eps p) (p_keys p))
    | (Ok (RHttp h), c1) => oidc_update_provider_info [("http_response", VNone)] (mkp c1 (p_eps p) (p_keys p))
    | (Ok (RText t), c1) => (Err OtherError, mkp c1 (p_eps p) (p_keys p))
    end
  else (Err (KeyError "provider_info"), mkp c (p_eps p) (p_keys p)).

(** rp_handler.py 229-243: the keys of configured provider information *)
Definition file_keys (iss : string) (kv : string * val) : jar :=
  if fst kv =?s "jwks" then [(iss, SFile (snd kv))]
  else if fst kv =?s "rsa" then [(iss, SPem (snd kv))] else [].
Fixpoint load_key_specs (iss : string) (specs : dict val) (j : jar) : res unit * jar :=
  match specs with
  | [] => (Ok tt, j)
  | (typ, spec) :: r =>
      if typ =?s "url" then
        match spec with
        | VDict d => load_key_specs iss r (j ++ map (fun kv => (fst kv, SUrl (snd kv))) d)
        | _ => (Err AttributeError, j)
        end
      else if typ =?s "file" then
        match spec with
        | VDict d => load_key_specs iss r (j ++ flat_map (file_keys iss) d)
        | _ => (Err AttributeError, j)
        end
      else (Err ValueError, j)
  end.
Definition load_configured_keys (iss : string) (pi : dict val) (j : jar) : res unit * jar :=
  match dget "keys" pi with
  | None => (Ok tt, j)
  | Some (VDict specs) => load_key_specs iss specs j
  | Some _ => (Err AttributeError, j)
  end.

(** rp_handler.py 189-247 *)
Definition do_provider_info (W : env) (p : pstate) : res val * pstate :=
  match provider_info (p_ctx p) with
  | [] => match dynamic_discovery W p with
          | (Err e, p1) => (Err e, p1)
          | (Ok _, p1) => (dict_get "issuer" (provider_info (p_ctx p1)), p1)
          end
  | pi =>
      let (r, j) := load_configured_keys (issuer (p_ctx p)) pi (p_keys p) in
      (match r with
       | Ok _ => Ok (match dget "issuer" pi with Some v => v | None => VStr (issuer (p_ctx p)) end)
       | Err e => Err e
       end, mkp (p_ctx p) (set_all pi (p_eps p)) j)
  end.
