(** Specification for C59: whose session a back-channel logout ends. *)
From Verif Require Import Base Json Msg M_State M_Ctx M_Codec M_Authz M_ClientAuth M_Service M_Token M_Handler M_Verify S_Trace S_Verify.

(** what the libraries do with a logout token (oidcmsg BackChannelLogoutRequest.verify,
    not in /repo): the verified claims come from the token in the request, unpacked with
    the arguments that were given and compared with them *)
Definition checks_logout_tokens (unpack : unpacker) (verify : dict val -> msg -> res msg) : Prop :=
  forall args m m', verify args m = Ok m' -> forall t, dget "__verified_logout_token" m' = Some t ->
    exists raw claims, dget "logout_token" m = Some (VStr raw) /\ t = VDict claims /\ unpack args raw = Ok claims /\
      (forall v, dget "iss" args = Some v -> dget "iss" claims = Some v) /\
      (forall v, dget "aud" args = Some (VStr v) -> v <> "" -> meant_for v claims).

(** a logout token to act on: signed with the algorithm registered for ID Tokens (RS256
    when none is), by the client's provider, for this client *)
Definition genuine_logout (unpack : unpacker) (c : ctx) (raw : string) (claims : dict val) : Prop :=
  (exists args, unpack args raw = Ok claims /\ dget "iss" args = Some (VStr (issuer c)) /\ dget "aud" args = Some (VStr (client_id c)) /\
     (forall alg, dget "id_token_signed_response_alg" (registration_response c) = Some alg -> dget "allowed_sign_alg" args = Some alg) /\
     (dget "id_token_signed_response_alg" (registration_response c) = None -> dget "allowed_sign_alg" args = Some (VStr "RS256"))) /\
  dget "iss" claims = Some (VStr (issuer c)) /\ (client_id c <> "" -> meant_for (client_id c) claims).
(** it names a user: by sub, or when it has no sub, by sid *)
Definition names (claims : dict val) (claim who : string) : Prop :=
  dget claim claims = Some (VStr who) /\ who <> "" /\
  (claim = "sub" \/ (claim = "sid" /\ (dget "sub" claims = None \/ exists v, dget "sub" claims = Some v /\ truthy v = false))).

(** the call [o] was about session [k]: its argument, or the state of the response it was
    handed *)
Definition about_session (c : ctx) (o : call) (k : string) : Prop :=
  match o with
  | CTokens _ st => st = k
  | CFinalize W iss resp _ => exists d m c', finalize_auth (e_vrf W "authorization") (e_now W) iss resp (set_db d c) = (Ok m, c') /\
      is_error_message m = false /\ dget "state" m = Some (VStr k)
  | _ => False
  end.
(** what the provider told the client about the user of session [k] in that call: a
    believable ID Token has the claim, or, when finalize got no ID Token, the user info
    for this session has it (for the subject only) *)
Definition told (unpack : unpacker) (cl : client) (c : ctx) (W : env) (k claim who : string) : Prop :=
  (exists args claims, believable unpack (e_now W) c args claims /\ with_registered_algs c args /\ dget claim claims = Some (VStr who)) \/
  (claim = "sub" /\ exists d a m c', get_user_info W cl k a (set_db d c) = (Ok (RMsg m), c') /\ dget "sub" m = Some (VStr who)).
(** how the user of a login is known after finalize: by the claims of the ID Token, else
    by the subject of the user info *)
Definition known_as (idt : val) (info : dict val) (claim who : string) : Prop :=
  match idt with
  | VDict (kv :: r) => dget claim (kv :: r) = Some (VStr who)
  | _ => claim = "sub" /\ dget "sub" info = Some (VStr who)
  end.
(** no session is cleared *)
Definition keeps_sessions (os : list call) : Prop := forall st, ~ In (CClear st) os.
(** the provider announced that its logout tokens may carry a session id (the back-channel
    metadata decides when it is there, else the front-channel one) *)
Definition session_ids (c : ctx) : Prop :=
  match dget "backchannel_logout_session_supported" (provider_info c) with
  | Some v => truthy v = true
  | None => exists v, dget "frontchannel_logout_session_supported" (provider_info c) = Some v /\ truthy v = true
  end.
