(** Service context, stateful computations over it, and the message classes the
    services use. *)
From Verif Require Import Base Json Msg M_State.
From Coq Require Import DecimalString.

(** service_context.py 77-192: the attributes of ServiceContext that the modelled
    code reads or writes.  The key jar is not modelled (keys are oracles). *)
Record ctx := mkctx {
  issuer : string;
  client_id : string;
  client_secret : string;
  base_url : string;
  jwks_uri : string;
  jwks : val;
  redirect_uris : list string;
  callback : dict val;
  behaviour : dict val;
  provider_info : dict val;
  registration_response : dict val;
  register_args : dict val;
  client_preferences : dict val;
  config : dict val;
  allow : dict val;
  add_on : dict val;
  sdb : db
}.

Definition set_db (d : db) (c : ctx) : ctx :=
  mkctx (issuer c) (client_id c) (client_secret c) (base_url c) (jwks_uri c) (jwks c) (redirect_uris c)
    (callback c) (behaviour c) (provider_info c) (registration_response c) (register_args c)
    (client_preferences c) (config c) (allow c) (add_on c) d.
Definition set_issuer (v : string) (c : ctx) : ctx :=
  mkctx v (client_id c) (client_secret c) (base_url c) (jwks_uri c) (jwks c) (redirect_uris c)
    (callback c) (behaviour c) (provider_info c) (registration_response c) (register_args c)
    (client_preferences c) (config c) (allow c) (add_on c) (sdb c).
Definition set_provider_info (v : dict val) (c : ctx) : ctx :=
  mkctx (issuer c) (client_id c) (client_secret c) (base_url c) (jwks_uri c) (jwks c) (redirect_uris c)
    (callback c) (behaviour c) v (registration_response c) (register_args c)
    (client_preferences c) (config c) (allow c) (add_on c) (sdb c).
Definition set_behaviour (v : dict val) (c : ctx) : ctx :=
  mkctx (issuer c) (client_id c) (client_secret c) (base_url c) (jwks_uri c) (jwks c) (redirect_uris c)
    (callback c) v (provider_info c) (registration_response c) (register_args c)
    (client_preferences c) (config c) (allow c) (add_on c) (sdb c).
Definition set_redirect_uris (v : list string) (c : ctx) : ctx :=
  mkctx (issuer c) (client_id c) (client_secret c) (base_url c) (jwks_uri c) (jwks c) v
    (callback c) (behaviour c) (provider_info c) (registration_response c) (register_args c)
    (client_preferences c) (config c) (allow c) (add_on c) (sdb c).
Definition set_callback (v : dict val) (c : ctx) : ctx :=
  mkctx (issuer c) (client_id c) (client_secret c) (base_url c) (jwks_uri c) (jwks c) (redirect_uris c)
    v (behaviour c) (provider_info c) (registration_response c) (register_args c)
    (client_preferences c) (config c) (allow c) (add_on c) (sdb c).
Definition set_client (id secret : string) (c : ctx) : ctx :=
  mkctx (issuer c) id secret (base_url c) (jwks_uri c) (jwks c) (redirect_uris c)
    (callback c) (behaviour c) (provider_info c) (registration_response c) (register_args c)
    (client_preferences c) (config c) (allow c) (add_on c) (sdb c).
Definition set_registration (v : dict val) (c : ctx) : ctx :=
  mkctx (issuer c) (client_id c) (client_secret c) (base_url c) (jwks_uri c) (jwks c) (redirect_uris c)
    (callback c) (behaviour c) (provider_info c) v (register_args c)
    (client_preferences c) (config c) (allow c) (add_on c) (sdb c).

Definition empty_ctx : ctx :=
  mkctx "" "" "" "" "" (VDict []) [] [] [] [] [] [] [] [] [] [] [].

(** computations that read and write the context; no rollback on exceptions *)
Definition M (A : Type) := ctx -> res A * ctx.
Definition ret {A} (a : A) : M A := fun c => (Ok a, c).
Definition raise {A} (e : exn) : M A := fun c => (Err e, c).
Definition bind {A B} (m : M A) (f : A -> M B) : M B :=
  fun c => match m c with (Ok a, c') => f a c' | (Err e, c') => (Err e, c') end.
Notation "x <- m ;; k" := (bind m (fun x => k)) (at level 100, m at next level, right associativity).
Notation "m ;;; k" := (bind m (fun _ => k)) (at level 100, right associativity).
Definition asks {A} (f : ctx -> A) : M A := fun c => (Ok (f c), c).
Definition lift {A} (r : res A) : M A := fun c => (r, c).
(** an operation on the state database of the context *)
Definition on_db {A} (f : db -> res A * db) : M A :=
  fun c => let (r, d) := f (sdb c) in (r, set_db d c).
(** a read of the state database *)
Definition read_db {A} (f : db -> res A) : M A := fun c => (f (sdb c), c).

(** [int(v)] *)
Definition to_int (v : val) : res Z :=
  match v with
  | VInt z => Ok z
  | VBool b => Ok (if b then 1 else 0)%Z
  | VStr s => match NilZero.int_of_string s with
              | Some i => if s =?s "" then Err ValueError else Ok (Z.of_int i)
              | None => Err ValueError
              end
  | _ => Err TypeError
  end.

(** ** message classes (oidcmsg.oauth2 / oidcmsg.oidc): parameter names, which are
    space separated lists, defaults, required parameters *)
Definition oauth2_authz_req_params : list string :=
  ["response_type"; "client_id"; "redirect_uri"; "scope"; "state"; "request"].
Definition cOAuth2AuthzRequest : mcls :=
  {| c_sp := ["response_type"; "scope"]; c_json := []; c_default := [];
     c_req := ["response_type"; "client_id"]; c_par := oauth2_authz_req_params |}.
Definition cAuthzRequest : mcls :=
  {| c_sp := ["response_type"; "scope"; "prompt"; "ui_locales"; "claims_locales"; "acr_values"];
     c_json := []; c_default := [];
     c_req := ["response_type"; "client_id"; "scope"; "redirect_uri"];
     c_par := oauth2_authz_req_params ++
              ["nonce"; "display"; "prompt"; "max_age"; "ui_locales"; "claims_locales"; "id_token_hint";
               "login_hint"; "acr_values"; "claims"; "registration"; "request_uri"; "response_mode"] |}.
Definition cAuthzResponse : mcls :=
  {| c_sp := ["scope"]; c_json := []; c_default := []; c_req := [];
     c_par := ["code"; "state"; "access_token"; "token_type"; "expires_in"; "scope"; "id_token"; "iss"; "client_id"] |}.
(** oauth2.AuthorizationResponse: 'scope' is no declared parameter *)
Definition cOAuth2AuthzResponse : mcls :=
  {| c_sp := []; c_json := []; c_default := []; c_req := ["code"; "state"];
     c_par := ["error"; "error_description"; "error_uri"; "code"; "state"; "iss"; "client_id"] |}.
Definition cTokenRequest : mcls :=
  {| c_sp := []; c_json := []; c_default := [("grant_type", VStr "authorization_code")];
     c_req := ["grant_type"; "code"; "redirect_uri"; "client_id"];
     c_par := ["grant_type"; "code"; "redirect_uri"; "client_id"; "client_secret"; "state";
               "client_assertion_type"; "client_assertion"] |}.
Definition cRefreshRequest : mcls :=
  {| c_sp := ["scope"]; c_json := []; c_default := [("grant_type", VStr "refresh_token")];
     c_req := ["grant_type"; "refresh_token"];
     c_par := ["grant_type"; "refresh_token"; "scope"; "client_id"; "client_secret"] |}.
Definition cTokenResponse : mcls :=
  {| c_sp := ["scope"]; c_json := []; c_default := []; c_req := ["access_token"; "token_type"];
     c_par := ["access_token"; "token_type"; "expires_in"; "refresh_token"; "scope"; "state"; "id_token"] |}.
Definition cEndSessionRequest : mcls :=
  {| c_sp := []; c_json := []; c_default := []; c_req := [];
     c_par := ["id_token_hint"; "post_logout_redirect_uri"; "state"] |}.
