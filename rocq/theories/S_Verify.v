(** Specification for C51: what has to be checked before an ID Token is believed. *)
From Verif Require Import Base Json Msg M_State M_Ctx M_Codec M_Authz M_ClientAuth M_Service M_Token M_Handler M_Verify S_Trace.

(** the ID Token is meant for [id] *)
Definition meant_for (id : string) (claims : dict val) : Prop :=
  dget "aud" claims = Some (VStr id) \/ exists l, dget "aud" claims = Some (VList l) /\ In (VStr id) l.

(** ** What the libraries do (oidcmsg, cryptojwt; not in /repo).
    [unpack args raw]: the claims of a JWT whose signature (and encryption) is right with
    the keys at hand and the algorithms named in [args]. *)
Definition unpacker := dict val -> string -> res (dict val).
(** [verify name args m]: the verify method of the response class of service [name],
    with the arguments [args]; the result is the message with its verified claims. *)
Definition verifier := string -> dict val -> msg -> res msg.
(** verified claims come from the ID Token in the message, unpacked with the arguments
    that were given and compared with them *)
Definition checks_id_tokens (unpack : unpacker) (now : Z) (verify : verifier) : Prop :=
  forall name args m m', verify name args m = Ok m' -> NoDup (dkeys m') /\
    forall t, dget "__verified_id_token" m' = Some t ->
    exists raw claims, dget "id_token" m = Some (VStr raw) /\ t = VDict claims /\ unpack args raw = Ok claims /\
      (forall v, dget "iss" args = Some v -> dget "iss" claims = Some v) /\
      (forall v, dget "client_id" args = Some (VStr v) -> meant_for v claims) /\
      (exists e s, dget "exp" claims = Some (VInt e) /\ (now - s <= e)%Z /\
         (dget "skew" args = Some (VInt s) \/ (dget "skew" args = None /\ s = 0%Z))).
(** the outside world [W] verifies with [verify], given the arguments the services gather *)
Definition verifies_with (W : env) (unpack : unpacker) (verify : verifier) : Prop :=
  (forall name c m, e_vrf W name c m = verify name (gather_verify_arguments name c) m) /\
  checks_id_tokens unpack (e_now W) verify.

(** the tolerance for clock differences: configured, else 15 seconds *)
Definition tolerance (c : ctx) (s : Z) : Prop :=
  dget "clock_skew" (config c) = Some (VInt s) \/ (dget "clock_skew" (config c) = None /\ s = 15%Z).
(** no verification argument is overridden by the configuration *)
Definition no_overrides (c : ctx) : Prop := dget "verify_args" (behaviour c) = None.

(** ** a believable ID Token: issued by the client's provider, for this client, not
    expired at [now], and with a right signature *)
Definition believable (unpack : unpacker) (now : Z) (c : ctx) (args claims : dict val) : Prop :=
  (exists raw, unpack args raw = Ok claims) /\
  dget "verify" args = Some (VBool true) /\ dget "iss" args = Some (VStr (issuer c)) /\
  dget "iss" claims = Some (VStr (issuer c)) /\
  (client_id c <> "" -> meant_for (client_id c) claims) /\
  (exists e s, dget "exp" claims = Some (VInt e) /\ (now - s <= e)%Z /\ (tolerance c s \/ s = 0%Z)).
(** the algorithm the client registered for is the one that is accepted *)
Definition with_registered_algs (c : ctx) (args : dict val) : Prop :=
  forall arg par, In (arg, par) [("sigalg", "id_token_signed_response_alg"); ("encalg", "id_token_encrypted_response_alg");
                                ("encenc", "id_token_encrypted_response_enc")] ->
    dget arg args = dget par (registration_response c).

(** the world of a call *)
Definition world (o : call) : option env :=
  match o with
  | CInit W _ _ | CFinalize W _ _ _ | CFinalizeAuth W _ _ | CTokens W _ | CRefresh W _ _ | CUserInfo W _ _ | CLogout W _ _ => Some W
  | CClear _ => None
  end.
