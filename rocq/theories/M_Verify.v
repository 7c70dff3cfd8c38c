(** Model of gather_verify_arguments: the arguments the services hand to the verify
    method of the response class.  The key jar is left out of the dictionary: which keys
    are at hand is part of the outside world (the unpacking of a JWT is an oracle). *)
From Verif Require Import Base Json Msg M_State M_Ctx.

(** oidc/__init__.py 49-53 *)
Definition IDT2REG : list (string * string) :=
  [("sigalg", "id_token_signed_response_alg"); ("encalg", "id_token_encrypted_response_alg");
   ("encenc", "id_token_encrypted_response_enc")].
(** oidc/userinfo.py 14-18 *)
Definition UI2REG : list (string * string) :=
  [("sigalg", "userinfo_signed_response_alg"); ("encalg", "userinfo_encrypted_response_alg");
   ("encenc", "userinfo_encrypted_response_enc")].

(** service_context.py 165-168 (clock_skew is only set there) *)
Definition clock_skew (c : ctx) : val :=
  match dget "clock_skew" (config c) with Some v => v | None => VInt 15 end.

(** the loops over IDT2REG / UI2REG *)
Definition from_registration (tab : list (string * string)) (c : ctx) (kwargs : dict val) : dict val :=
  fold_left (fun kw ap => match dget (snd ap) (registration_response c) with Some v => dset (fst ap) v kw | None => kw end)
    tab kwargs.
Definition with_missing_kid (c : ctx) (kwargs : dict val) : dict val :=
  match dget "missing_kid" (allow c) with Some v => dset "allow_missing_kid" v kwargs | None => kwargs end.
Definition with_verify_args (c : ctx) (kwargs : dict val) : dict val :=
  match dget "verify_args" (behaviour c) with Some (VDict d) => dupdate kwargs d | _ => kwargs end.

(** oidc/authorization.py 244-280 *)
Definition authz_verify_args (c : ctx) : dict val :=
  let kw := [("iss", VStr (issuer c)); ("verify", VBool true); ("skew", clock_skew c)] in
  let kw := if client_id c =?s "" then kw else dset "client_id" (VStr (client_id c)) kw in
  with_verify_args c (with_missing_kid c (from_registration IDT2REG c kw)).
(** oidc/access_token.py 31-66 *)
Definition token_verify_args (c : ctx) : dict val :=
  let kw := [("client_id", VStr (client_id c)); ("iss", VStr (issuer c)); ("verify", VBool true); ("skew", clock_skew c)] in
  with_verify_args c (with_missing_kid c (from_registration IDT2REG c kw)).
(** oidc/userinfo.py 117-146 *)
Definition userinfo_verify_args (c : ctx) : dict val :=
  let kw := [("client_id", VStr (client_id c)); ("iss", VStr (issuer c)); ("verify", VBool true); ("skew", clock_skew c)] in
  with_missing_kid c (from_registration UI2REG c kw).
(** service.py 447-470 *)
Definition service_verify_args (name : string) (c : ctx) : dict val :=
  let kw := [("iss", VStr (issuer c)); ("verify", VBool true); ("client_id", VStr (client_id c))] in
  if (name =?s "provider_info") && starts_with "http://" (issuer c) then dset "allow_http" (VBool true) kw else kw.

(** by service name; the refresh service does not override the method *)
Definition gather_verify_arguments (name : string) (c : ctx) : dict val :=
  if name =?s "authorization" then authz_verify_args c
  else if name =?s "accesstoken" then token_verify_args c
  else if name =?s "userinfo" then userinfo_verify_args c
  else service_verify_args name c.

(** the arguments with which backchannel_logout verifies a logout token,
    rp_handler.py 957-965.  The key jar is left out, as above. *)
Definition logout_verify_args (c : ctx) : dict val :=
  [("aud", VStr (client_id c)); ("iss", VStr (issuer c));
   ("allowed_sign_alg", match dget "id_token_signed_response_alg" (registration_response c) with Some v => v | None => VStr "RS256" end)].
