(** Specification for C77: what a client does after a completed login. *)
From Verif Require Import Base Json Msg M_State M_Ctx M_Codec M_ClientAuth M_Service M_Token M_Handler S_Token S_Flow S_Trace S_Sched S_Traffic S_Honest.

(** a call that does not get, refresh or clear the tokens of the login [k]: it is about another
    login, or asks for user info or logs out *)
Definition spares (k : string) (o : call) : Prop :=
  tame_call o /\ (about k o = false \/ match o with CUserInfo _ _ _ | CLogout _ _ _ => True | _ => False end).
(** the response of the code flow: no token in it *)
Definition code_only (k code : string) (W : env) (resp : dict val) : Prop :=
  code_response k code resp /\ dget "access_token" resp = None /\ dget (verified (verified "id_token")) resp = None /\
  (forall ar, msg_new cAuthzResponse resp = Ok ar -> verifies W "authorization" ar ar).
(** the token response of the login, as stored *)
Definition stored_tokens (d : db) (k : string) (it : msg) : Prop := get_item d cTokenResponse "token_response" k = Ok it.
(** what get_valid_access_token gives at [now] for the token [tok] of the answer [v] received at
    [at_]: the token until it expires *)
Definition valid_until (v : msg) (at_ now : Z) (tok : string) (r : res (val * Z)) : Prop :=
  match dget "expires_in" v with
  | None => r = Ok (VStr tok, 0%Z)
  | Some x => exists n, to_int x = Ok n /\ r = if (now <? at_ + n)%Z then Ok (VStr tok, (at_ + n)%Z) else Err OidcServiceError
  end.
(** the form redeems the refresh token [rt] *)
Definition refreshes (id secret rt : string) (b : option body) (h : headers) : Prop :=
  exists txt, b = Some (BText txt) /\ form_has txt "grant_type" "refresh_token" /\ form_has txt "refresh_token" rt /\ proves_client id secret txt h.
(** the token endpoint of the client's provider answers such a request with [tm] *)
Definition refresh_endpoint_honest (W : env) (c : ctx) (rt : string) (tm : dict val) : Prop :=
  exists ep, dget "token_endpoint" (provider_info c) = Some (VStr ep) /\
    forall b h, refreshes (client_id c) (client_secret c) rt b h -> e_http W ep "POST" b h = Ok (json_answer tm).
(** the client is registered, or configured, to authenticate with its secret *)
Definition registered_secret (c : ctx) : Prop :=
  client_id c <> "" /\ client_secret c <> "" /\
  (dget "token_endpoint_auth_method" (behaviour c) = Some (VStr "client_secret_basic") \/
   dget "token_endpoint_auth_method" (behaviour c) = Some (VStr "client_secret_post")).
(** the answer [v] to the login gives the refresh token [rt], and has no parameters of a
    request in it *)
Definition gives_refresh_token (rt : string) (v : msg) : Prop :=
  dget "refresh_token" v = Some (VStr rt) /\ rt <> "" /\ dget (verified "refresh_token") v = None /\
  forall p, In p ["grant_type"; "client_id"; "client_secret"] -> dget p v = None /\ dget (verified p) v = None.
(** verification of the answer [m]: the verified ID Token is added, if there is one *)
Definition with_id_token (o : option (dict val)) (m : msg) : msg :=
  match o with Some idt => dset (verified "id_token") (VDict idt) m | None => m end.
Definition no_private (d : dict val) : Prop :=
  dget "__expires_at" d = None /\ dget (verified "id_token") d = None /\ dget (verified (verified "id_token")) d = None.
(** the client can refresh, and the request for it has what the client makes it of *)
Definition can_refresh (cl : client) (c : ctx) : Prop :=
  has_service cl "refresh_token" = true /\ dget "pre_construct" (conf_of cl "refresh_token") = None /\
  dget "request_args" (conf_of cl "refresh_token") = None /\ dget "grant_type" (register_args c) = None /\ dget "grant_type" (behaviour c) = None.
