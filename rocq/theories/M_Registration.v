(** Model of oidc/registration.py, oidc/read_registration.py, util.py 538-556
    (load_registration_response) and service_context.py 219-240. *)
From Verif Require Import Base Json Msg M_State M_Ctx M_Codec M_Authz M_ClientAuth M_Service M_Token M_Handler M_Provider.

(** ** response types and grant types *)
(** [list.sort] on strings (UTF-8 byte order is code point order) *)
Fixpoint insert (x : string) (l : list string) : list string :=
  match l with [] => [x] | y :: r => if String.leb x y then x :: y :: r else y :: insert x r end.
Fixpoint sort (l : list string) : list string :=
  match l with [] => [] | x :: r => insert x (sort r) end.
(** registration.py 16-23 *)
Definition rt2gt : dict (list string) :=
  [("code", ["authorization_code"]); ("id_token", ["implicit"]); ("id_token token", ["implicit"]);
   ("code id_token", ["authorization_code"; "implicit"]); ("code token", ["authorization_code"; "implicit"]);
   ("code id_token token", ["authorization_code"; "implicit"])].
Definition set_add (l : list string) (x : string) : list string := if mem_str x l then l else l ++ [x].
(** 26-40.  The order of [list(set)] is unspecified; here: order of first addition. *)
Definition grant_types_of (rt : string) : list string :=
  match dget (join " " (sort (split_on sp rt))) rt2gt with Some g => g | None => [] end.
Definition response_types_to_grant_types (rts : list string) : list string :=
  fold_left (fun acc rt => fold_left set_add (grant_types_of rt) acc) rts [].

(** ** callbacks *)
Record uris := mkuris { u_code : bool; u_implicit : bool; u_form_post : bool; u_request : bool; u_back : bool; u_front : bool }.
(** 43-92; [hex] is the SHA-256 hex digest of hash_seed followed by the issuer *)
Definition create_callbacks (hex base : string) (u : uris) : dict val :=
  let url (p : string) := VStr (base ++ "/" ++ p ++ "/" ++ hex)%string in
  [("__hex", VStr hex)] ++
  (if u_code u then [("code", url "authz_cb")] else []) ++
  (if u_implicit u then [("implicit", url "authz_im_cb")] else []) ++
  (if u_form_post u then [("form_post", url "authz_fp_cb")] else []) ++
  (if u_request u then [("request_uris", url "req_uri")] else []) ++
  (if u_back u || u_front u then [("post_logout_redirect_uris", VList [url "session_logout"])] else []) ++
  (if u_back u then [("backchannel_logout_uri", url "bc_logout")] else []) ++
  (if u_front u then [("frontchannel_logout_uri", url "fc_logout")] else []).

(** 95-103, for a value to look for that is not None *)
Definition cmp_ (a : option val) (b : val) : bool :=
  match a with
  | Some (VList l) => existsb (val_eqb b) l || val_eqb (VList l) b
  | Some v => val_eqb v b
  | None => false
  end.
(** 106-111 *)
Definition in_config_or_preferences (conf : dict val) (attr : string) (v : val) : bool :=
  let prefs := match dget "client_preferences" conf with Some (VDict d) => d | _ => [] end in
  cmp_ (dget attr prefs) v || cmp_ (dget attr conf) v.

(** 114-162.  [sha] maps the seed followed by the issuer to the hex digest; recording
    the hash in hash2issuer is not modelled. *)
Definition implicit_types : list string := ["id_token"; "id_token token"; "code id_token token"; "code idtoken"; "code token"].
Definition wanted_uris (c : ctx) (ignore : list string) : uris :=
  let has (x : string) := mem_str x ignore in
  let usable := in_config_or_preferences (config c) in
  mkuris (negb (has "redirect_uris") && usable "response_types" (VStr "code"))
         (negb (has "redirect_uris") && existsb (fun rt => usable "response_types" (VStr rt)) implicit_types)
         (negb (has "form_post") && usable "form_post_usable" (VBool true))
         (negb (has "request_uris") && (dhas "require_request_uri_registration" (provider_info c) && usable "request_uri_usable" (VBool true)))
         (negb (has "backchannel_logout_uri") && (dhas "backchannel_logout_supported" (provider_info c) && usable "backchannel_logout_usable" (VBool true)))
         (negb (has "frontchannel_logout_uri") && (dhas "frontchannel_logout_supported" (provider_info c) && usable "frontchannel_logout_usable" (VBool true))).
Definition add_callbacks (sha : string -> string) (seed : string) (ignore : list string) (c : ctx) : ctx :=
  let cbs := create_callbacks (sha (seed ++ issuer c)%string) (base_url c) (wanted_uris c ignore) in
  let cbs' := if mem_str "redirect_uris" ignore then cbs
              else dset "redirect_uris" (VList (map snd (filter (fun kv => mem_str (fst kv) ["code"; "implicit"; "form_post"]) cbs))) cbs in
  set_callback cbs' c.

(** 165-166 *)
Definition CALLBACK_URIS : list string :=
  ["post_logout_redirect_uris"; "backchannel_logout_uri"; "frontchannel_logout_uri"; "request_uris"; "redirect_uris"].
(** 182-189 *)
Definition fill_callback (c : ctx) (args : dict val) (k : string) : dict val :=
  if otruthy (dget k args) then args
  else let u := if otruthy (dget k (register_args c)) then dget k (register_args c) else dget k (callback c) in
       match u with Some v => if truthy v then dset k v args else args | None => args end.
(** 169-191 *)
Definition add_callback_uris (sha : string -> string) (seed : string) : pre_method := fun args post kwargs c =>
  let c1 := add_callbacks sha seed (filter (fun k => mem_str k CALLBACK_URIS) (dkeys args)) c in
  (Ok (fold_left (fill_callback c1) CALLBACK_URIS args, post), c1).

(** 194-216: 202-214 for one attribute *)
Definition key_attr (c : ctx) (attr : string) : option val :=
  let v := if attr =?s "jwks_uri" then VStr (jwks_uri c) else jwks c in
  if truthy v then Some v else dget attr (config c).
Definition add_jwks_uri_or_jwks : pre_method := fun args post kwargs c =>
  (Ok (if dhas "jwks_uri" args then ddel "jwks" args
       else if dhas "jwks" args then args
       else match key_attr c "jwks_uri" with
            | Some v => dset "jwks_uri" v args
            | None => match key_attr c "jwks" with Some v => dset "jwks" v args | None => args end
            end, post), c).

(** 239-253 *)
Definition add_preference (c : ctx) (args : dict val) (prop : string) : dict val :=
  if dhas prop args then args
  else match dget prop (behaviour c) with
       | Some v => dset prop v args
       | None => match dget prop (client_preferences c) with Some v => dset prop v args | None => args end
       end.
Definition add_client_behaviour_preference (params : list string) : pre_method := fun args post kwargs c =>
  (Ok (fold_left (add_preference c) params args, post), c).

(** 255-266.  response_types is declared as a list of strings, which makes the message
    class put a single text into a list. *)
Definition grant_types_for (v : val) : res (list string) :=
  match v with
  | VList l => match all_strs l with Some ws => Ok (response_types_to_grant_types ws) | None => Err AttributeError end
  | VStr s => Ok (response_types_to_grant_types [s])
  | VDict d => Ok (response_types_to_grant_types (dkeys d))
  | _ => Err TypeError
  end.
Definition registration_post : post_method := fun req kwargs =>
  req1 <- lift (match dget "response_types" req with
                | None => Ok req
                | Some v => let! g := grant_types_for v in Ok (dset "grant_types" (strs g) req)
                end) ;;
  ret (if dhas "jwks_uri" req1 && dhas "jwks" req1 then ddel "jwks" req1 else req1).

(** oidcmsg.oidc.RegistrationRequest; declared types (lists of strings, numbers,
    booleans) are not enforced *)
Definition cRegistrationRequest : mcls :=
  {| c_sp := []; c_json := []; c_default := [("application_type", VStr "web"); ("response_types", strs ["code"])];
     c_req := ["redirect_uris"]; c_par := dkeys registration_params |}.
(** 219-237; what update_service_context does is [adopt_registration] below.
    Simplification: a redirect answer would be stored as registration response. *)
Definition registration_service (sha : string -> string) (seed : string) (vrf : ctx -> msg -> res msg)
  (upd : msg -> string -> M msg) (conf : dict val) : service :=
  mkservice "registration" cRegistrationRequest false cMessage "" "registration_endpoint" "POST" "json" "json" (fun _ => "")
    conf [] [add_client_behaviour_preference (dkeys registration_params); add_callback_uris sha seed; add_jwks_uri_or_jwks]
    [registration_post] no_gather [] vrf pass upd None.

(** ** the registration response *)
(** the attributes of the context that only registration uses: client_secret_expires_at,
    registration_access_token, and the key jar *)
Record rctx := mkr { r_ctx : ctx; r_expires_at : val; r_access_token : option val; r_keys : jar }.
(** the sources of an owner's keys; an owner with keys counts as being in the jar *)
Definition keys_of (o : string) (j : jar) : list ksrc := map snd (filter (fun e => fst e =?s o) j).
Definition is_owner (o : string) (j : jar) : bool := existsb (fun e => fst e =?s o) j.
(** 277-281: the client's own keys are filed under its identity too (import_jwks of
    export_jwks(True, '')), unless keys are filed there already *)
Definition own_keys_also_as (id : string) (j : jar) : jar :=
  if is_owner id j then j else j ++ map (fun s => (id, s)) (keys_of "" j).
Definition set_id (id : string) (c : ctx) : ctx := set_client id (client_secret c) c.
Definition set_secret (s : string) (c : ctx) : ctx := set_client (client_id c) s c.
(** 268-295; client_id and client_secret are texts *)
Definition adopt_registration (resp : msg) (r : rctx) : msg * rctx :=
  let resp := dsetdefault "token_endpoint_auth_method" (VStr "client_secret_basic") resp in
  let c0 := set_registration resp (r_ctx r) in
  let id := str_of (dget "client_id" resp) in
  let secret := str_of (dget "client_secret" resp) in
  let r1 :=
    if id =?s "" then mkr c0 (r_expires_at r) (r_access_token r) (r_keys r)
    else let c1 := set_id id c0 in
         let j := own_keys_also_as id (r_keys r) in
         if secret =?s "" then mkr c1 (r_expires_at r) (r_access_token r) j
         else mkr (set_secret secret c1)
                (match dget "client_secret_expires_at" resp with Some v => v | None => r_expires_at r end)
                (r_access_token r) (j ++ [("", SSecret secret); (id, SSecret secret)]) in
  (resp, match dget "registration_access_token" resp with
         | Some t => mkr (r_ctx r1) (r_expires_at r1) (Some t) (r_keys r1)
         | None => r1
         end).
(** the part of it that the other services see *)
Definition registration_update : msg -> string -> M msg := fun resp _ c =>
  let (m, r) := adopt_registration resp (mkr c (VInt 0) None []) in (Ok m, r_ctx r).

(** util.py 538-556; the request arguments of the caller *)
Definition load_registration_response (W : env) (cl : client) (sha : string -> string) (seed : string) (args : dict val) : M unit :=
  fun c =>
  if client_id c =?s "" then
    match do_request_named W cl (registration_service sha seed (e_vrf W "registration") registration_update (conf_of cl "registration"))
            args "" [] c with
    | (Err (KeyError _), c1) => (Err ConfigurationError, c1)
    | (Err e, c1) => (Err e, c1)
    | (Ok r, c1) => (if has_error r then Err OidcServiceError else Ok tt, c1)
    end
  else (Ok tt, c).

(** ** reading the registration, read_registration.py 21-46 *)
Definition read_endpoint (c : ctx) : val :=
  match dget "registration_client_uri" (registration_response c) with Some v => v | None => VStr "" end.
Definition read_authn_header (c : ctx) (authn : string) : res headers :=
  if authn =?s "client_secret_basic" then
    let! t := dict_get "registration_access_token" (registration_response c) in
    Ok [("Authorization", ("Bearer " ++ str_val t)%string)]
  else Ok [].

(** service.py 346-414 for this service: GET, an empty message; [authn] is the caller's
    choice, "" when not given *)
Definition read_registration_request (authn : string) (c : ctx) : res (val * headers) :=
  let! h := read_authn_header c (if authn =?s "" then "client_secret_basic" else authn) in
  Ok (read_endpoint c, h).

(** ** service_context.py 219-240; [sha] gives the hex digest *)
Definition generate_request_uris (sha : string -> string) (path : string) (c : ctx) : list string * ctx :=
  let iss := match dget "issuer" (provider_info c) with Some (VStr i) => i | _ => issuer c end in
  let h := sha (iss ++ base_url c)%string in
  let redirs := [if starts_with "/" path then (base_url c ++ path ++ "/" ++ h)%string
                 else (base_url c ++ "/" ++ path ++ "/" ++ h)%string] in
  (redirs, set_redirect_uris redirs c).
