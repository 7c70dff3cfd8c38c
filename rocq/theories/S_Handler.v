(** Specification vocabulary for the session functions of the handler. *)
From Verif Require Import Base Json Msg M_State S_State M_Ctx M_Codec M_ClientAuth M_Service M_Token M_Handler S_Token.

(** ** access tokens at hand (C15) *)
(** the items that can hold an access token, most recent kind first *)
Definition token_kinds : list (string * mcls) :=
  [("refresh_token_response", cTokenResponse); ("token_response", cTokenResponse); ("auth_response", cAuthzResponse)].
(** item [t] of session [k] holds access token [a] with expiry [e] *)
Definition holds_token (d : db) (k t : string) (c : mcls) (a : val) (e : option val) : Prop :=
  exists m, get_item d c t k = Ok m /\ dget "access_token" m = Some a /\ dget "__expires_at" m = e.

(** ** the newest item that has a parameter *)
Fixpoint newest (d : db) (k p : string) (typs : list string) : option val :=
  match typs with
  | [] => None
  | t :: r =>
      match newest d k p r with
      | Some v => Some v
      | None => match get_item d cMessage t k with Ok m => dget p m | Err _ => None end
      end
  end.

(** ** where tokens come from (C12) *)
Inductive source := Front | Endpoint | Nowhere.
(** words of the response type, source of the access token, source of the ID Token *)
Definition flow_table : list (list string * (source * source)) :=
  [(["code"], (Endpoint, Endpoint));
   (["id_token"], (Nowhere, Front));
   (["token"], (Front, Nowhere));
   (["id_token"; "token"], (Front, Front));
   (["code"; "id_token"], (Endpoint, Endpoint));
   (["code"; "token"], (Front, Nowhere));
   (["code"; "id_token"; "token"], (Front, Front))].

(** the three messages of a session that can carry tokens, oldest first *)
Definition session_items : list string := ["auth_response"; "token_response"; "refresh_token_response"].
(** the newest of the given items for which [f] gives something *)
Fixpoint newest_with (f : msg -> option val) (d : db) (k : string) (typs : list string) : option val :=
  match typs with
  | [] => None
  | t :: r =>
      match newest_with f d k r with
      | Some v => Some v
      | None => match get_item d cMessage t k with Ok m => f m | Err _ => None end
      end
  end.
(** the claims of a session's newest ID Token: the verified form where there is one *)
Definition session_id_token (d : db) (k : string) : option val :=
  newest_with (fun m => match dget (verified "id_token") m with Some v => Some v | None => dget "id_token" m end) d k session_items.
(** the signed form as received *)
Definition session_raw_id_token (d : db) (k : string) : option val := newest_with (dget "id_token") d k session_items.

(** [m] is [raw] with the time its access token expires, counted from [now] *)
Definition stamped (now : Z) (raw m : msg) : Prop :=
  match dget "expires_in" raw with
  | None => m = raw
  | Some v => exists n, to_int v = Ok n /\
                forall k, dget k m = if k =?s "__expires_at" then Some (VInt (now + n)) else dget k raw
  end.
(** the same environment with another HTTP peer *)
Definition with_http (W : env) (http : http_client) : env :=
  mkenv (e_now W) (e_nonce W) (e_state W) (e_state2 W) (e_nonce2 W) (e_lstate W) http (e_jwt W) (e_vrf W) (e_agg W)
    (e_reqobj W) (e_authn W) (e_rand W) (e_hash W).
(** a provider answer that is an OAuth2 error in JSON *)
Definition json_error (h : http_resp) : Prop :=
  (h_status h < 300 \/ (400 <= h_status h < 500))%Z /\ (In (h_status h) [200; 201; 202; 203; 204; 205; 206]%Z \/ (400 <= h_status h)%Z) /\
  h_ctype h = Some "application/json" /\
  exists d m, json_loads (h_text h) = Some (VDict d) /\ msg_new cTokenResponse d = Ok m /\ dhas "error" m = true.

(** ** the refresh request on the wire (C40): posted to the token endpoint with the refresh
    token either as bearer token or in the body *)
Definition refresh_wire (rt ep u m : string) (b : option body) (h : headers) : Prop :=
  u = ep /\ m = "POST" /\ exists txt, b = Some (BText txt) /\
    ((dget "Authorization" h = Some ("Bearer " ++ rt)%string /\ form_lacks txt "refresh_token") \/ form_has txt "refresh_token" rt).
(** an access token at hand in a session, with its expiry *)
Definition held (d : db) (k : string) (a : val) (e : option val) : Prop :=
  exists t c, In (t, c) token_kinds /\ holds_token d k t c a e.
(** the post-logout redirect URI a client is configured with (C19): registration
    settings first, then the callbacks *)
Definition configured_logout_uri (c : ctx) (u : string) : Prop :=
  match dget "post_logout_redirect_uris" (register_args c) with
  | Some (VStr s) => s = u
  | Some (VList (VStr s :: _)) => s = u
  | None => exists r, dget "post_logout_redirect_uris" (callback c) = Some (VList (VStr u :: r))
  | _ => False
  end.
(** where the value [v] of a token comes from (C12): the authorization response [resp],
    the answer [ans] of the token endpoint, or nowhere *)
Definition comes_from (s : source) (name : string) (resp : msg) (ans : option msg) (v : val) : Prop :=
  match s with
  | Front => dget name resp = Some v
  | Endpoint => exists m, ans = Some m /\ (dget name m = Some v \/ (dget name m = None /\ v = VNone))
  | Nowhere => v = VNone
  end.
(** the names that a user info answer lets its claim sources fill in (C17) *)
Definition claims_from_sources (answer : msg) : list string :=
  match dget "_claim_names" answer with Some (VDict names) => dkeys names | _ => [] end.
(** the user info request on the wire (C44) *)
Definition userinfo_wire (tok ep u m : string) (b : option body) (h : headers) : Prop :=
  u = ep /\ m = "GET" /\ b = None /\ dget "Authorization" h = Some ("Bearer " ++ tok)%string.
(** the client authentication method a client is configured with *)
Definition auth_method_is (c : ctx) (m : string) : Prop :=
  exists v, dget "token_endpoint_auth_method" (behaviour c) = Some v /\ (v = VStr m \/ exists r, v = VList (VStr m :: r)).
