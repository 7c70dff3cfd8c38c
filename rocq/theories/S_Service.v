(** Specification vocabulary for the service pipeline. *)
From Verif Require Import Base Json Msg M_State M_Ctx M_Codec M_Service.

(** how a message of class [c] shows a value given for parameter [k] *)
Definition shown (c : mcls) (k : string) (v : val) : option val :=
  if mem_str k (c_json c) then
    match v with VDict _ => Some v | VStr s => json_loads s | _ => None end
  else if mem_str k (c_sp c) then
    match v with VStr s => Some (strs (split_on sp s)) | _ => Some v end
  else Some v.

(** the first usable value of a list of sources *)
Inductive first_usable : list (option val) -> option val -> Prop :=
| fu_none : first_usable [] None
| fu_here v r : truthy v = true -> first_usable (Some v :: r) (Some v)
| fu_falsy v r o : truthy v = false -> first_usable r o -> first_usable (Some v :: r) o
| fu_missing r o : first_usable r o -> first_usable (None :: r) o.

(** the request with the endpoint's own query parameters put over it *)
Definition with_query (u : string) (req : msg) : msg :=
  dupdate req (map (fun kv => (fst kv, strs (snd kv))) (parse_qs (u_query (urlsplit u)))).

(** computations and response hooks that leave the context alone *)
Definition read_only {A} (m : M A) : Prop := forall c r c', m c = (r, c') -> c' = c.
Definition reads_only (f : msg -> string -> M msg) : Prop := forall m st, read_only (f m st).

(** [m] is the post-processed form of a message that is no error message and that was
    verified in context [c] *)
Definition accepted (s : service) (c : ctx) (m : msg) : Prop :=
  exists m0 v st, s_vrf s c m0 = Ok v /\ is_error_message m0 = false /\ s_post_parse s v st c = (Ok m, c).

(** a verified message that is not an error message *)
Definition verified_ok (s : service) (c : ctx) : Prop :=
  exists m0 v, is_error_message m0 = false /\ s_vrf s c m0 = Ok v.

(** the attributes of a client context that can serve as request parameters *)
Definition context_attributes : list (string * (ctx -> val)) :=
  [("issuer", fun c => VStr (issuer c)); ("client_id", fun c => VStr (client_id c)); ("client_secret", fun c => VStr (client_secret c));
   ("redirect_uris", fun c => strs (redirect_uris c)); ("base_url", fun c => VStr (base_url c));
   ("jwks", fun c => jwks c); ("jwks_uri", fun c => VStr (jwks_uri c));
   ("callback", fun c => VDict (callback c)); ("behaviour", fun c => VDict (behaviour c));
   ("provider_info", fun c => VDict (provider_info c)); ("registration_response", fun c => VDict (registration_response c));
   ("client_preferences", fun c => VDict (client_preferences c)); ("register_args", fun c => VDict (register_args c));
   ("config", fun c => VDict (config c)); ("allow", fun c => VDict (allow c)); ("add_on", fun c => VDict (add_on c))].
Definition context_value (c : ctx) (p : string) : option val :=
  match find (fun kf => fst kf =?s p) context_attributes with Some kf => Some (snd kf c) | None => None end.
(** what the caller of [construct] gives for a parameter: the request argument, or the
    'state' keyword argument where the request has a state parameter *)
Definition caller_value (s : service) (args kwargs : dict val) (p : string) : option val :=
  match dget p args with
  | Some v => Some v
  | None => if (p =?s "state") && mem_str "state" (c_par (s_cls s)) then dget "state" kwargs else None
  end.
(** the value the service's configuration gives under 'request_args' *)
Definition service_setting (s : service) (p : string) : option val :=
  match dget "request_args" (s_conf s) with Some (VDict d) => dget p d | _ => None end.
(** the sources of a parameter the caller does not give, in order *)
Definition sources (s : service) (c : ctx) (p : string) : list (option val) :=
  [context_value c p; service_setting s p; dget p (register_args c); dget p (s_defaults s); dget p (behaviour c)].

(** the endpoint of a request: the caller's, else the service's own, else the one the
    provider published under the service's endpoint name *)
Definition endpoint_in_use (s : service) (kw : dict val) (c : ctx) (ep : string) : Prop :=
  match dget "endpoint" kw with
  | Some v => v = VStr ep
  | None => (s_endpoint s <> "" /\ ep = s_endpoint s) \/
            (s_endpoint s = "" /\ dget (s_endpoint_name s) (provider_info c) = Some (VStr ep))
  end.
(** the media types of request bodies *)
Definition media_types : list (string * string) :=
  [("urlencoded", "application/x-www-form-urlencoded"); ("json", "application/json");
   ("jws", "application/jose"); ("jwe", "application/jose"); ("jose", "application/jose")].

(** the parameters of requests in RFC 6749 (4.1.1, 4.1.3, 6), OpenID Connect Core (3.1.2.1,
    6) and RP-Initiated Logout *)
Definition rfc6749_authorization : list string := ["response_type"; "client_id"; "redirect_uri"; "scope"; "state"].
Definition openid_authorization : list string :=
  rfc6749_authorization ++ ["response_mode"; "nonce"; "display"; "prompt"; "max_age"; "ui_locales"; "claims_locales";
    "id_token_hint"; "login_hint"; "acr_values"; "claims"; "registration"; "request"; "request_uri"].
Definition rfc6749_token : list string := ["grant_type"; "code"; "redirect_uri"; "client_id"].
Definition rfc6749_refresh : list string := ["grant_type"; "refresh_token"; "scope"].
Definition rp_initiated_logout : list string := ["id_token_hint"; "post_logout_redirect_uri"; "state"].

(** the text of a value in a query or form body: texts as they are, numbers in decimal digits,
    what is not a text the way Python's str writes it, structures as JSON *)
Inductive text_of : val -> string -> Prop :=
| text_str s : text_of (VStr s) s
| text_int z t : DecimalString.NilZero.int_of_string t = Some (Z.to_int z) -> text_of (VInt z) t
| text_true : text_of (VBool true) "True"
| text_false : text_of (VBool false) "False"
| text_none : text_of VNone "None"
| text_dict d : text_of (VDict d) (json_dumps (VDict d))
| text_list l : text_of (VList l) (json_dumps (VList l)).
(** the texts a parameter is sent with: one that is None is not sent, a declared list of words
    is sent in one piece, any other list as one parameter per member *)
Inductive sent_as (words : bool) : val -> list string -> Prop :=
| sent_none : sent_as words VNone []
| sent_words ws : words = true -> sent_as words (strs ws) [join " " ws]
| sent_list l ts : words = false -> Forall2 text_of l ts -> sent_as words (VList l) ts
| sent_one v t : v <> VNone -> (forall l, v <> VList l) -> text_of v t -> sent_as words v [t].
