(** Specification vocabulary for client authentication (RFC 6749 2.3.1, RFC 6750,
    RFC 7523), independent of the helpers of M_ClientAuth.v. *)
From Verif Require Import Base Json Msg M_State S_State M_Ctx M_Codec M_ClientAuth.

(** the first value that is given *)
Fixpoint first_given (l : list (option val)) : option val :=
  match l with [] => None | Some v :: _ => Some v | None :: r => first_given r end.

(** ** HTTP Basic *)
(** recovering the credentials from a header value, as a receiver does *)
Definition read_basic (h : string) : option (string * string) :=
  if starts_with "Basic " h then
    match b64dec true (drop 6 h) with
    | None => None
    | Some cred => match split1 ":"%char cred with
                   | Some (u, p) => Some (unquote_plus u, unquote_plus p)
                   | None => None
                   end
    end
  else None.
(** the user name: the caller's, else the client identifier *)
Definition user_in_force (c : ctx) (kwargs : dict val) : option val :=
  first_given [dget "user" kwargs; Some (VStr (client_id c))].
(** the password: the caller's, else the secret of the request, else the client's *)
Definition password_in_force (c : ctx) (req : msg) (kwargs : dict val) : option val :=
  first_given [dget "password" kwargs; dget "client_secret" req; Some (VStr (client_secret c))].

(** ** bearer tokens *)
(** the access token of the newest item of session [key] that has one *)
Definition newest_access_token (c : ctx) (key : string) (t : val) : Prop :=
  exists st, get_state (sdb c) key = Ok st /\
    last_offer false (present st ["auth_response"; "token_response"; "refresh_token_response"]) "access_token" = Some t.
(** the token used for a request: the request's own (parameter [ty]), else the caller's,
    else the newest of the session *)
Inductive token_in_force (c : ctx) (kwargs : dict val) (ty : string) (req : msg) : val -> Prop :=
| tif_request t : dget ty req = Some t -> token_in_force c kwargs ty req t
| tif_caller t : dget ty req = None -> dget "access_token" kwargs = Some t -> token_in_force c kwargs ty req t
| tif_session key t : dget ty req = None -> dget "access_token" kwargs = None -> dget "key" kwargs = Some (VStr key) ->
    newest_access_token c key t -> token_in_force c kwargs ty req t.

(** ** signed assertions *)
(** the key types of the signature algorithms (RFC 7518 3.1) *)
Definition key_types : list (string * string) :=
  [("HS256", "oct"); ("HS384", "oct"); ("HS512", "oct"); ("RS256", "RSA"); ("RS384", "RSA"); ("RS512", "RSA");
   ("ES256", "EC"); ("ES384", "EC"); ("ES512", "EC"); ("PS256", "RSA"); ("PS384", "RSA"); ("PS512", "RSA"); ("none", "none")].
(** the client can sign with [alg] *)
Definition can_sign (own : list key) (alg : string) : Prop :=
  exists ty k, In (alg, ty) key_types /\ In k own /\ k_ty k = ty.
Definition at_token_endpoint (kwargs : dict val) : Prop := dget "authn_endpoint" kwargs = Some (VStr "token_endpoint").
(** what is known about the algorithm at the token endpoint: registered, else
    preferred, else the first published one the client can sign with, else RS256 *)
Inductive endpoint_alg (own : list key) (c : ctx) : option val -> Prop :=
| ea_registered a : registration_response c <> [] ->
    dget "token_endpoint_auth_signing_alg" (registration_response c) = Some a -> endpoint_alg own c (Some a)
| ea_preferred a : registration_response c = [] ->
    dget "token_endpoint_auth_signing_alg" (client_preferences c) = Some a -> a <> VNone -> endpoint_alg own c (Some a)
| ea_unpublished : registration_response c = [] ->
    In (dget "token_endpoint_auth_signing_alg" (client_preferences c)) [None; Some VNone] ->
    dget "token_endpoint_auth_signing_alg_values_supported" (provider_info c) = None ->
    endpoint_alg own c (Some (VStr "RS256"))
| ea_published l1 a l2 : registration_response c = [] ->
    In (dget "token_endpoint_auth_signing_alg" (client_preferences c)) [None; Some VNone] ->
    dget "token_endpoint_auth_signing_alg_values_supported" (provider_info c) = Some (VList (l1 ++ VStr a :: l2)) ->
    can_sign own a -> (forall b, In (VStr b) l1 -> ~ can_sign own b) ->
    endpoint_alg own c (Some (VStr a))
| ea_nothing l : registration_response c = [] ->
    In (dget "token_endpoint_auth_signing_alg" (client_preferences c)) [None; Some VNone] ->
    dget "token_endpoint_auth_signing_alg_values_supported" (provider_info c) = Some (VList l) ->
    (forall b, In (VStr b) l -> ~ can_sign own b) ->
    endpoint_alg own c None.
(** the caller's algorithm, else the default of the method *)
Definition caller_alg (meth : string) (kwargs : dict val) (alg : string) : Prop :=
  match dget "algorithm" kwargs with
  | Some v => v = VStr alg /\ alg <> ""
  | None => alg = if meth =?s "client_secret_jwt" then "HS256" else "RS256"
  end.
Inductive signing_alg (own : list key) (meth : string) (c : ctx) (kwargs : dict val) : string -> Prop :=
| sa_endpoint a : at_token_endpoint kwargs -> endpoint_alg own c (Some (VStr a)) -> a <> "" -> signing_alg own meth c kwargs a
| sa_elsewhere a : ~ at_token_endpoint kwargs -> caller_alg meth kwargs a -> signing_alg own meth c kwargs a
| sa_undecided o a : at_token_endpoint kwargs -> endpoint_alg own c o ->
    match o with Some v => truthy v = false | None => True end -> caller_alg meth kwargs a -> signing_alg own meth c kwargs a.
(** the audience: the token endpoint when authenticating there, else the provider *)
Definition audience (c : ctx) (kwargs : dict val) (aud : val) : Prop :=
  (at_token_endpoint kwargs -> dget "token_endpoint" (provider_info c) = Some aud) /\
  (~ at_token_endpoint kwargs -> dget "issuer" (provider_info c) = Some aud).

(** [a] is a fresh assertion of the client for [aud], signed with own keys that fit the
    algorithm; [E] is the outside world (signer, keys, random string, clock) *)
Definition client_assertion (E : authn_env) (meth : string) (c : ctx) (kwargs : dict val) (a : string) : Prop :=
  exists ks alg claims aud life,
    a = ae_sgn E ks alg claims /\
    ks <> [] /\ (forall k, In k ks -> In k (ae_own E)) /\
    (forall k ty, In k ks -> In (alg, ty) key_types -> k_ty k = ty) /\
    signing_alg (ae_own E) meth c kwargs alg /\ audience c kwargs aud /\
    (life = match dget "lifetime" kwargs with Some (VInt l) => l | _ => 600 end)%Z /\
    dget "iss" claims = Some (VStr (client_id c)) /\ dget "sub" claims = Some (VStr (client_id c)) /\
    dget "aud" claims = Some aud /\ dget "iat" claims = Some (VInt (ae_now E)) /\
    dget "exp" claims = Some (VInt (ae_now E + life)) /\ dget "jti" claims = Some (VStr (ae_jti E)).
