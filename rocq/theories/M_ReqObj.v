(** Model of request objects and the files they are published in: service_context.py 197-217,
    oidc/authorization.py 127-205 and 226-240, oidc/utils.py, and of add_path, modsplit and
    lower_or_upper in util.py. *)
From Verif Require Import Base Json Msg M_State M_Ctx M_Codec M_ClientAuth M_Service M_Token.

(** ** service_context.py 197-217 *)
Definition filename_from_webname (base webname : string) : res string :=
  if starts_with base webname then
    let name := drop (String.length base) webname in
    Ok (if starts_with "/" name then drop 1 name else name)
  else Err ValueError.

(** ** util.py 525-535 *)
Definition add_path (url path : string) : string :=
  if ends_with "/" url
  then (if starts_with "/" path then (url ++ drop 1 path)%string else (url ++ path)%string)
  else (if starts_with "/" path then (url ++ path)%string else (url ++ "/" ++ path)%string).
(** util.py 155-167: module and attribute *)
Definition modsplit (name : string) : res (string * string) :=
  if char_in ":"%char name then
    match split_on ":"%char name with [a; b] => Ok (a, b) | _ => Err ValueError end
  else
    match rev (split_on "."%char name) with
    | last :: x :: r => Ok (join "." (rev (x :: r)), last)
    | _ => Err ValueError
    end.
(** util.py 409-413 *)
Definition lower_or_upper (config : dict val) (param : string) (default : option val) : option val :=
  let pick k := match dget k config with Some v => Some v | None => default end in
  let r := pick (lower param) in
  if otruthy r then r else pick (upper param).

(** ** files: name -> text.  Writing always succeeds. *)
Definition files := dict string.
(** os.path.join of two parts *)
Definition path_join (dir name : string) : string :=
  if starts_with "/" name then name
  else if (dir =?s "") || ends_with "/" dir then (dir ++ name)%string else (dir ++ "/" ++ name)%string.
(** oidc/utils.py 68-90; [rnd i]: the i-th rndstr(10).  The loop draws names until one is
    free; [fuel] bounds the number of draws (the program draws on for ever) *)
Fixpoint free_name (fs : files) (dir : string) (rnd : nat -> string) (fuel i : nat) (name : string) : option string :=
  match fuel with
  | 0 => None
  | S n => if dhas (path_join dir name) fs then free_name fs dir rnd n (S i) (rnd i) else Some name
  end.
Definition construct_request_uri (fs : files) (dir base_path : string) (rnd : nat -> string) (fuel : nat)
  : option (string * string) :=
  match free_name fs dir rnd fuel 1 (rnd 0 ++ ".jwt")%string with
  | None => None
  | Some name => Some (path_join dir name,
                       if ends_with "/" base_path then (base_path ++ name)%string else (base_path ++ "/" ++ name)%string)
  end.
(** oidc/authorization.py 144-161.  Simplification: request_uris is a list of texts *)
Definition store_request_on_file (fs : files) (c : ctx) (dir base_path : string) (rnd : nat -> string) (fuel : nat)
  (text : string) : res string * files :=
  let write f w := (Ok w, dset f text fs) in
  match dget "request_uris" (registration_response c) with
  | Some (VList (VStr w :: _)) =>
      match filename_from_webname (base_url c) w with Ok f => write f w | Err e => (Err e, fs) end
  | Some (VList []) => (Err IndexError, fs)
  | Some _ => (Err OtherError, fs)
  | None => match construct_request_uri fs dir base_path rnd fuel with Some (f, w) => write f w | None => (Err OtherError, fs) end
  end.

(** ** request objects.  [ro_sign keys iss alg aud claims]: make_openid_request (oidcmsg);
    [ro_encrypt alg enc kid target text]: JWE.encrypt with the target's key *)
Inductive signing_keys := OwnKeys | NoKeys | NotGiven | GivenKeys (v : val).
Record ro_env := mkro {
  ro_sign : signing_keys -> val -> val -> val -> dict val -> res string;
  ro_encrypt : val -> val -> val -> val -> string -> res string;
  ro_now : Z;
  ro_rnd : nat -> string;
  ro_fuel : nat
}.
(** oidc/authorization.py 127-141 *)
Definition request_object_alg (c : ctx) (kwargs : dict val) : val :=
  let given := match dget "request_object_signing_alg" kwargs with Some v => Some v | None => dget "algorithm" kwargs end in
  if otruthy given then match given with Some v => v | None => VNone end
  else match dget "request_object_signing_alg" (behaviour c) with Some v => v | None => VStr "RS256" end.
(** oidc/utils.py 10-64 *)
Definition request_object_encryption (E : ro_env) (c : ctx) (kwargs : dict val) (text : string) : res string :=
  let look k := match dget k kwargs with Some v => Some v | None => dget k (behaviour c) end in
  match look "request_object_encryption_alg" with
  | None => Ok text
  | Some alg =>
      if negb (truthy alg) then Ok text
      else match look "request_object_encryption_enc" with
           | None => Err MissingRequiredAttribute
           | Some enc =>
               if negb (truthy enc) then Err MissingRequiredAttribute
               else match dget "target" kwargs with
                    | None => Err MissingRequiredAttribute
                    | Some t => ro_encrypt E alg enc (match dget "enc_kid" kwargs with Some k => k | None => VStr "" end) t text
                    end
           end
  end.
(** oidc/authorization.py 163-205: the signed (and encrypted) request object *)
Definition ro_keys (alg : val) (kwargs : dict val) : signing_keys :=
  if val_eqb alg (VStr "none") then NoKeys
  else match dget "keys" kwargs with
       | Some v => GivenKeys v
       | None => if truthy alg then OwnKeys else NotGiven
       end.
Definition not_none (o : option val) : option val := match o with Some VNone => None | _ => o end.
Definition ro_issuer (c : ctx) (kwargs : dict val) : val :=
  match not_none (dget "issuer" kwargs) with Some v => v | None => VStr (client_id c) end.
Definition ro_audience (c : ctx) (kwargs : dict val) : val :=
  match not_none (dget "recv" kwargs) with
  | Some v => v
  | None => match dget "issuer" (provider_info c) with Some v => v | None => VStr (issuer c) end
  end.
(** [expires_in] puts an exp claim into the request before it is signed *)
Definition ro_claims (E : ro_env) (req : msg) (kwargs : dict val) : res msg :=
  match dget "expires_in" kwargs with
  | Some v => if truthy v then let! n := to_int v in Ok (dset "exp" (VInt (ro_now E + n)) req) else Ok req
  | None => Ok req
  end.
Definition request_object (E : ro_env) (c : ctx) (req : msg) (kwargs : dict val) : res string :=
  let alg := request_object_alg c kwargs in
  let! claims := ro_claims E req kwargs in
  let! jws := ro_sign E (ro_keys alg kwargs) (ro_issuer c kwargs) alg (ro_audience c kwargs) (msg_to_dict cAuthzRequest claims) in
  request_object_encryption E c kwargs jws.
(** oidc/authorization.py 226-232: where the files go *)
Definition local_dir (c : ctx) : string :=
  match dget "local_dir" (config c) with Some (VStr d) => d | _ => "./requests" end.
Definition request_base (c : ctx) : string := (base_url c ++ "/" ++ "requests")%string.
(** the value of the request or request_uri parameter, and the files afterwards *)
Definition request_parameter (E : ro_env) (fs : files) (c : ctx) (req : msg) (p : string) (kwargs : dict val)
  : res string * files :=
  match request_object E c req kwargs with
  | Err e => (Err e, fs)
  | Ok o => if p =?s "request" then (Ok o, fs)
            else store_request_on_file fs c (local_dir c) (request_base c) (ro_rnd E) (ro_fuel E) o
  end.
(** as the authorization service uses it (M_Token.v) *)
Definition mkobj_of (E : ro_env) (fs : files) : reqobj_oracle := fun c req p kwargs => fst (request_parameter E fs c req p kwargs).
