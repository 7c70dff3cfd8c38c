(** Model of client_auth.py: the client authentication methods.
    A method takes the request message and the keyword arguments and returns the
    HTTP arguments (their 'headers' member, [None] when there is none) and the
    modified request.  Contexts are only read. *)
From Verif Require Import Base Json Msg M_State M_Ctx M_Codec.

Definition headers := dict string.
(** http_args: only its 'headers' member matters; [None] = no such member *)
Definition http_args := option headers.

(** client_auth.py 87-96 *)
Definition get_passwd (c : ctx) (req : msg) (kwargs : dict val) : val :=
  match dget "password" kwargs with
  | Some v => v
  | None => match dget "client_secret" req with Some v => v | None => VStr (client_secret c) end
  end.
(** client_auth.py 98-104 *)
Definition get_user (c : ctx) (kwargs : dict val) : val :=
  match dget "user" kwargs with Some v => v | None => VStr (client_id c) end.

(** client_auth.py 106-121 *)
Definition basic_credentials (user passwd : string) : string :=
  (quote_plus user ++ ":" ++ quote_plus passwd)%string.
Definition basic_token (user passwd : string) : string := b64enc true (basic_credentials user passwd).

(** client_auth.py 123-149; [atr]: the request is an AccessTokenRequest *)
Definition with_or_without_client_id (cls : mcls) (atr : bool) (c : ctx) (req : msg) : res msg :=
  let drop_it := if mem_str "client_id" (c_req cls) then req else ddel "client_id" req in
  if atr then
    match dget "grant_type" req with
    | None => Err (KeyError "grant_type")
    | Some g => if val_eqb g (VStr "authorization_code")
                then Ok (if dhas "client_id" req then req else dset "client_id" (VStr (client_id c)) req)
                else Ok drop_it
    end
  else Ok drop_it.

(** client_auth.py 153-167 *)
Definition basic_modify (cls : mcls) (atr : bool) (c : ctx) (req : msg) : res msg :=
  with_or_without_client_id cls atr c (ddel "client_secret" req).

(** client_auth.py 169-191 *)
Definition client_secret_basic (cls : mcls) (atr : bool) (c : ctx) (kwargs : dict val)
  (ha : http_args) (req : msg) : res (http_args * msg) :=
  match get_user c kwargs, get_passwd c req kwargs with
  | VStr user, VStr passwd =>
      let hs := match ha with Some h => h | None => [] end in
      let hs := dset "Authorization" ("Basic " ++ basic_token user passwd)%string hs in
      let! r := basic_modify cls atr c req in Ok (Some hs, r)
  | _, _ => Err TypeError
  end.

(** client_auth.py 204-224 *)
Definition post_modify (c : ctx) (kwargs : dict val) (req : msg) : res msg :=
  let! r :=
    (if dhas "client_secret" req then Ok req
     else match dget "client_secret" kwargs with
          | Some v => Ok (dset "client_secret" v req)
          | None => if client_secret c =?s "" then Err AuthnFailure
                    else Ok (dset "client_secret" (VStr (client_secret c)) req)
          end) in
  Ok (dset "client_id" (VStr (client_id c)) r).
(** client_auth.py 227-237 *)
Definition client_secret_post (c : ctx) (kwargs : dict val) (ha : http_args) (req : msg)
  : res (http_args * msg) :=
  let! r := post_modify c kwargs req in Ok (ha, r).

(** client_auth.py 240-274 (the side effect on the class c_param, 261, is in sent_cls,
    M_Service.v).  [kwargs['key']] is the session key. *)
Definition token_items : list string := ["auth_response"; "token_response"; "refresh_token_response"].
Definition find_token (c : ctx) (kwargs : dict val) (token_type : string) (req : msg) : res (val * msg) :=
  match dget token_type req with
  | Some t => Ok (t, ddel token_type req)
  | None =>
      match dget "access_token" kwargs with
      | Some t => Ok (t, req)
      | None =>
          match dget "key" kwargs with
          | None => Err (KeyError "key")
          | Some (VStr k) =>
              let! a := multiple_extend_request_args (sdb c) [] k ["access_token"] token_items false in
              let! t := dict_get "access_token" a in Ok (t, req)
          | Some _ => Err (KeyError "key")
          end
      end
  end.

(** client_auth.py 280-315; a token is a string ("Bearer {}".format) *)
Definition bearer_header (service_name : string) (c : ctx) (kwargs : dict val) (ha : http_args) (req : msg)
  : res (http_args * msg) :=
  let! (t, r) := find_token c kwargs (if service_name =?s "refresh_token" then "refresh_token" else "access_token") req in
  if truthy t then
    match t with
    | VStr tok => Ok (Some (dset "Authorization" ("Bearer " ++ tok)%string (match ha with Some h => h | None => [] end)), r)
    | _ => Err OtherError
    end
  else Err (KeyError "No access or refresh token available").

(** client_auth.py 321-353 *)
Definition bearer_body (c : ctx) (kwargs : dict val) (ha : http_args) (req : msg) : res (http_args * msg) :=
  let! (t, r) := find_token c kwargs "access_token" req in
  let! (t, r) := (if truthy t then Ok (t, r) else find_token c kwargs "refresh_token" r) in
  if truthy t then Ok (ha, dset "access_token" t r)
  else Err (KeyError "No access or refresh token available").

(** client_auth.py 356-371 *)
Definition bearer_auth (req : dict val) (authn : string) : res val :=
  match dget "access_token" req with
  | Some t => Ok t
  | None => if starts_with "Bearer " authn then Ok (VStr (drop 7 authn)) else Err ValueError
  end.

(** ** signed JWTs *)
(** a key of the key jar: key id and key type ("RSA", "EC", "oct") *)
Record key := mkkey { k_id : string; k_ty : string }.
(** cryptojwt.jws.utils.alg2keytype *)
Definition alg2keytype (alg : string) : string :=
  if starts_with "RS" alg || starts_with "PS" alg then "RSA"
  else if starts_with "HS" alg then "oct"
  else if starts_with "ES" alg then "EC"
  else "none".
(** cryptojwt.jws.jws.SIGNER_ALGS *)
Definition signer_algs : list string :=
  ["HS256"; "HS384"; "HS512"; "RS256"; "RS384"; "RS512"; "ES256"; "ES384"; "ES512"; "PS256"; "PS384"; "PS512"; "none"].
(** KeyJar.get_signing_key(type, "", alg): own signing keys of the type *)
Definition keys_of_type (own : list key) (ty : string) : list key := filter (fun k => k_ty k =?s ty) own.

(** client_auth.py 380-396 with 563-564 / 576-577; defaults.py 62-66 *)
Definition def_sign_alg (meth : string) : string := if meth =?s "client_secret_jwt" then "HS256" else "RS256".
Definition choose_algorithm (meth : string) (kwargs : dict val) : res string :=
  match dget "algorithm" kwargs with
  | Some (VStr a) => if a =?s "" then Err AuthnFailure else Ok a
  | Some v => if truthy v then Err OtherError else Err AuthnFailure
  | None => Ok (def_sign_alg meth)
  end.

(** client_auth.py 410-430 *)
Fixpoint get_key_by_kid (kid alg : string) (own : list key) : res key :=
  match own with
  | [] => Err NoMatchingKey
  | k :: r => if k_id k =?s kid then (if k_ty k =?s alg2keytype alg then Ok k else Err NoMatchingKey)
              else get_key_by_kid kid alg r
  end.
(** client_auth.py 432-449; [sig_kids] is context.kid["sig"] *)
Definition get_signing_key (own : list key) (sig_kids : dict string) (alg : string) (kid : option string)
  : res (list key) :=
  let k := match kid with Some k => k | None => "" end in
  if k =?s "" then
    match dget (alg2keytype alg) sig_kids with
    | Some k => let! x := get_key_by_kid k alg own in Ok [x]
    | None => Ok (keys_of_type own (alg2keytype alg))
    end
  else let! x := get_key_by_kid k alg own in Ok [x].

(** the first supported algorithm for which there is a key (client_auth.py 469-473) *)
Definition first_alg (own : list key) (algs : list val) : option string :=
  match find (fun v => match v with
                       | VStr a => mem_str a signer_algs
                                   && match keys_of_type own (alg2keytype a) with [] => false | _ => true end
                       | _ => false end) algs with
  | Some (VStr a) => Some a
  | _ => None
  end.
(** client_auth.py 451-481 *)
Definition audience_and_algorithm (own : list key) (meth : string) (c : ctx) (kwargs : dict val)
  : res (val * string) :=
  let at_token := match dget "authn_endpoint" kwargs with Some v => val_eqb v (VStr "token_endpoint") | None => false end in
  let! alg :=
    (if at_token then
       match registration_response c with
       | [] => match dget "token_endpoint_auth_signing_alg" (client_preferences c) with
               | Some VNone | None =>
                   match dget "token_endpoint_auth_signing_alg_values_supported" (provider_info c) with
                   | None => Ok (Some (VStr "RS256"))
                   | Some (VList algs) => Ok (match first_alg own algs with Some a => Some (VStr a) | None => None end)
                   | Some _ => Err OtherError
                   end
               | Some a => Ok (Some a)
               end
       | rr => let! a := dict_get "token_endpoint_auth_signing_alg" rr in Ok (Some a)
       end
     else Ok None) in
  let! aud := dict_get (if at_token then "token_endpoint" else "issuer") (provider_info c) in
  match alg with
  | Some (VStr a) => if a =?s "" then let! x := choose_algorithm meth kwargs in Ok (aud, x) else Ok (aud, a)
  | Some v => if truthy v then Err OtherError else let! x := choose_algorithm meth kwargs in Ok (aud, x)
  | None => let! x := choose_algorithm meth kwargs in Ok (aud, x)
  end.

(** client_auth.py 35-52: the claims of the assertion *)
Definition assertion_claims (client_id : string) (aud : val) (jti : string) (now lifetime : Z) : dict val :=
  [("iss", VStr client_id); ("sub", VStr client_id); ("aud", aud); ("jti", VStr jti);
   ("exp", VInt (now + lifetime)); ("iat", VInt now)].

(** client_auth.py 483-503.  [sgn keys alg claims] is Message.to_jwt; [jti] is
    rndstr(32); [now] is utc_time_sans_frac(). *)
Definition construct_client_assertion (sgn : list key -> string -> dict val -> string) (own : list key)
  (sig_kids : dict string) (jti : string) (now : Z) (meth : string) (c : ctx) (kwargs : dict val) : res string :=
  let! (aud, alg) := audience_and_algorithm own meth c kwargs in
  let! ks := get_signing_key own sig_kids alg (match dget "kid" kwargs with Some (VStr k) => Some k | Some _ => Some "" | None => None end) in
  match ks with
  | [] => Err Unsupported
  | _ => match dget "lifetime" kwargs with
         | None => Ok (sgn ks alg (assertion_claims (client_id c) aud jti now 600))
         | Some (VInt l) => Ok (sgn ks alg (assertion_claims (client_id c) aud jti now l))
         | Some _ => Err TypeError
         end
  end.

Definition jwt_bearer : string := "urn:ietf:params:oauth:client-assertion-type:jwt-bearer".
(** client_auth.py 505-537 (the last step fails when the class has no client_id
    parameter) *)
Definition jws_modify (mk : res string) (cls : mcls) (kwargs : dict val) (req : msg) : res msg :=
  let! r :=
    match dget "client_assertion" kwargs with
    | Some a => Ok (dset "client_assertion_type"
                      (match dget "client_assertion_type" kwargs with Some t => t | None => VStr jwt_bearer end)
                      (dset "client_assertion" a req))
    | None =>
        if dhas "client_assertion" req
        then Ok (dsetdefault "client_assertion_type" (VStr jwt_bearer) req)
        else let! a := mk in
             Ok (dset "client_assertion_type" (VStr jwt_bearer) (dset "client_assertion" (VStr a) req))
    end in
  let r := ddel "client_secret" r in
  if mem_str "client_id" (c_par cls)
  then Ok (if mem_str "client_id" (c_req cls) then r else ddel "client_id" r)
  else Err (KeyError "client_id").
(** client_auth.py 539-552 *)
Definition jws_authn sgn own sig_kids jti now (meth : string) (cls : mcls) (c : ctx) (kwargs : dict val) (req : msg)
  : res (http_args * msg) :=
  let! r := jws_modify (construct_client_assertion sgn own sig_kids jti now meth c kwargs) cls kwargs req in
  Ok (None, r).

(** client_auth.py 596-609 *)
Definition valid_service_context (expires_at when now : Z) : bool :=
  let n := if (when =? 0)%Z then now else when in
  negb (negb (expires_at =? 0)%Z && (expires_at <? n)%Z).

(** client_auth.py 584-591 and 612-621: the methods by name; an unknown name raises
    ValueError. *)
Record authn_env := {
  ae_sgn : list key -> string -> dict val -> string;
  ae_own : list key;
  ae_sig_kids : dict string;
  ae_jti : string;
  ae_now : Z
}.
Definition authenticate (E : authn_env) (meth service_name : string) (cls : mcls) (atr : bool) (c : ctx)
  (kwargs : dict val) (ha : http_args) (req : msg) : res (http_args * msg) :=
  if meth =?s "client_secret_basic" then client_secret_basic cls atr c kwargs ha req
  else if meth =?s "client_secret_post" then client_secret_post c kwargs ha req
  else if meth =?s "bearer_header" then bearer_header service_name c kwargs ha req
  else if meth =?s "bearer_body" then bearer_body c kwargs ha req
  else if (meth =?s "client_secret_jwt") || (meth =?s "private_key_jwt")
  then jws_authn (ae_sgn E) (ae_own E) (ae_sig_kids E) (ae_jti E) (ae_now E) meth cls c kwargs req
  else Err ValueError.
