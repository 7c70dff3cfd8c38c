(** Model of the add-ons oauth2/add_on/dpop.py and oauth2/add_on/pushed_authorization.py. *)
From Verif Require Import Base Json Msg M_State M_Ctx M_Codec M_ClientAuth M_Service M_Token.

(** ** DPoP *)
Definition set_add_on (v : dict val) (c : ctx) : ctx :=
  mkctx (issuer c) (client_id c) (client_secret c) (base_url c) (jwks_uri c) (jwks c) (redirect_uris c)
    (callback c) (behaviour c) (provider_info c) (registration_response c) (register_args c)
    (client_preferences c) (config c) (allow c) v (sdb c).
(** cryptojwt: a key is known by its name.  [dp_mint alg]: key_by_alg; [dp_jwk key]: its
    public half; [dp_sign key header payload]: JWS.sign_compact; [dp_jti]: uuid4().hex *)
Record dpop_env := mkdpop {
  dp_mint : string -> string;
  dp_jwk : string -> val;
  dp_sign : string -> dict val -> dict val -> res string;
  dp_jti : string;
  dp_now : Z
}.
(** [context.add_on['dpop']] *)
Definition dpop_conf (c : ctx) : res (dict val) :=
  match dget "dpop" (add_on c) with Some (VDict d) => Ok d | Some _ => Err TypeError | None => Err (KeyError "dpop") end.
Definition val_in (x : val) (v : val) : bool := match v with VList l => existsb (val_eqb x) l | _ => false end.
(** dpop.py 96-122: the key and algorithm to use; None: leave the headers alone.
    Simplification: [sign_algs] and the provider's list are lists. *)
Definition dpop_key (E : dpop_env) (c : ctx) : res (option (string * val)) * ctx :=
  match dpop_conf c with
  | Err e => (Err e, c)
  | Ok conf =>
      match dget "key" conf with
      | Some (VStr k) =>
          match dget "alg" conf with Some a => (Ok (Some (k, a)), c) | None => (Err (KeyError "alg"), c) end
      | Some _ => (Err OtherError, c)
      | None =>
          match dget "dpop_signing_alg_values_supported" (provider_info c) with
          | None => (Err (KeyError "dpop_signing_alg_values_supported"), c)
          | Some supported =>
              if negb (truthy supported) then (Ok None, c)
              else match dget "sign_algs" conf with
                   | Some (VList algs) =>
                       match find (fun a => val_in a supported) algs with
                       | Some (VStr alg) =>
                           if alg =?s "" then (Ok None, c)
                           else let k := dp_mint E alg in
                                (Ok (Some (k, VStr alg)),
                                 set_add_on (dset "dpop" (VDict (dset "alg" (VStr alg) (dset "key" (VStr k) conf))) (add_on c)) c)
                       | Some _ => (Err OtherError, c)
                       | None => (Ok None, c)
                       end
                   | Some _ => (Err TypeError, c)
                   | None => (Err (KeyError "sign_algs"), c)
                   end
          end
      end
  end.
(** 124-144: DPoPProof(typ, alg, jwk, jti, htm, htu, iat).create_header(); the key exists
    (and stays) even when the endpoint is unknown *)
Definition proof_header (alg jwk : val) : dict val := [("typ", VStr "dpop+jwt"); ("alg", alg); ("jwk", jwk)].
Definition proof_payload (jti : string) (htm htu : val) (iat : Z) : dict val :=
  [("jti", VStr jti); ("htm", htm); ("htu", htu); ("iat", VInt iat)].
Definition dpop_header (E : dpop_env) : header_method := fun h _req ep meth _kwargs c =>
  match dpop_key E c with
  | (Err e, c1) => (Err e, c1)
  | (Ok None, c1) => (Ok h, c1)
  | (Ok (Some (k, alg)), c1) =>
      (let! htu := dict_get ep (provider_info c1) in
       let! jws := dp_sign E k (proof_header alg (dp_jwk E k)) (proof_payload (dp_jti E) (VStr meth) htu (dp_now E)) in
       Ok (dset "dpop" jws h), c1)
  end.
(** 147-164: on the token and the userinfo service; [signing_algorithms] *)
Definition with_extra (m : header_method) (s : service) : service :=
  mkservice (s_name s) (s_cls s) (s_atr s) (s_rcls s) (s_endpoint s) (s_endpoint_name s) (s_http_method s)
    (s_req_type s) (s_resp_type s) (s_authn s) (s_conf s) (s_defaults s) (s_pre s) (s_post s) (s_gather s)
    (s_extra s ++ [m]) (s_vrf s) (s_post_parse s) (s_update s) (s_redirect s).
Definition dpop_add_support (algs : list string) (c : ctx) : ctx :=
  set_add_on (dset "dpop" (VDict [("sign_algs", strs algs)]) (add_on c)) c.

(** the receiving side.  cryptojwt's factory: None if the text is no JWS, else its header, its
    payload and whether the signature verifies with a given key (a JWK) and algorithm *)
Record jws_view := mkview { jv_header : dict val; jv_payload : dict val; jv_ok : val -> val -> bool }.
(** 64-84 DPoPProof.verify_header.  verify_compact refuses the algorithm none whatever the
    key; a key that is no JWK raises (modelled as [jv_ok] being false: any exception) *)
Definition verify_header (open : string -> option jws_view) (text : string) : res (option msg) :=
  match open text with
  | None => Ok None
  | Some j =>
      match dget "jwk" (jv_header j) with
      | None => Err OtherError
      | Some k =>
          let! alg := dict_get "alg" (jv_header j) in
          if val_eqb alg (VStr "none") then Err ValueError
          else if jv_ok j k alg then Ok (Some (dupdate (dupdate [] (jv_header j)) (jv_payload j)))
          else Err ValueError
      end
  end.
(** 49-54 DPoPProof.verify; Message.verify: the required members are there (their types are
    not modelled) *)
Definition proof_params : list string := ["typ"; "alg"; "jwk"; "jti"; "htm"; "htu"; "iat"].
Definition proof_verify (p : msg) : res unit :=
  if existsb (fun k => negb (dhas k p)) proof_params then Err MissingRequiredAttribute
  else match dget "typ" p, dget "alg" p with
       | Some t, Some a =>
           if negb (val_eqb t (VStr "dpop+jwt")) then Err ValueError
           else if val_eqb a (VStr "none") then Err ValueError else Ok tt
       | _, _ => Err MissingRequiredAttribute
       end.

(** ** pushed authorization requests *)
(** [par_sign base_url claims]: JWT(key_jar, iss=base_url).pack; [par_http method url data]:
    status and text of the answer *)
Record par_env := mkpar {
  par_sign : string -> dict val -> res string;
  par_http : string -> string -> string -> res (Z * string)
}.
Definition par_conf (c : ctx) : res (dict val) :=
  match dget "pushed_authorization" (add_on c) with
  | Some (VDict d) => Ok d | Some _ => Err TypeError | None => Err (KeyError "pushed_authorization") end.
Definition is_lax (conf : dict val) : res bool := let! r := dict_get "merge_rule" conf in Ok (val_eqb r (VStr "lax")).
(** the required parameters of the request, put into [m] ([request_args.get(param)]: None
    when missing) *)
Definition put_required (cls : mcls) (req m : msg) : msg :=
  fold_left (fun a k => dset k (match dget k req with Some v => v | None => VNone end) a) (c_req cls) m.
(** pushed_authorization.py 21-35: the body.  [cls] is the class of the request *)
Definition par_body (P : par_env) (cls : mcls) (conf : dict val) (req : msg) (c : ctx) : res string :=
  let! f := dict_get "body_format" conf in
  if val_eqb f (VStr "urlencoded") then msg_to_urlencoded cls req
  else let! jws := par_sign P (base_url c) (msg_to_dict cls req) in
       let! lax := is_lax conf in
       let m := [("request", VStr jws)] in
       msg_to_urlencoded {| c_sp := []; c_json := []; c_default := []; c_req := []; c_par := [] |}
         (if lax then put_required cls req m else m).
(** 37-53.  The HTTP client's get is called with the body as data.  Simplification: the
    request_uri of the answer is a text *)
Definition push_authorization (P : par_env) (cls : mcls) : post_method := fun req _ c =>
  (let! conf := par_conf c in
   let! b := par_body P cls conf req c in
   let! ep := dict_get "pushed_authorization_request_endpoint" (provider_info c) in
   match ep with
   | VStr ep =>
       let! (status, text) := par_http P "GET" ep b in
       if (status =? 200)%Z then
         let! resp := msg_from_json cMessage text in
         let! u := dict_get "request_uri" resp in
         match u with
         | VStr u =>
             let! lax := is_lax conf in
             let r := [("request_uri", VStr u)] in
             Ok (if lax then put_required cls req r else r)
         | _ => Err OtherError
         end
       else Ok req
   | _ => Err OtherError
   end, c).
(** 56-74: the last post_construct method of the authorization service.  The request is then
    a JWTSecuredAuthorizationRequest; what get_http_url does with it is the same as for the
    service's own class: the required parameters of that class are among those of [s_cls]. *)
Definition with_par (P : par_env) (s : service) : service :=
  mkservice (s_name s) (s_cls s) (s_atr s) (s_rcls s) (s_endpoint s) (s_endpoint_name s) (s_http_method s)
    (s_req_type s) (s_resp_type s) (s_authn s) (s_conf s) (s_defaults s) (s_pre s)
    (s_post s ++ [push_authorization P (s_cls s)]) (s_gather s) (s_extra s) (s_vrf s) (s_post_parse s) (s_update s) (s_redirect s).
