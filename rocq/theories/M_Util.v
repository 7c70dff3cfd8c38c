(** Model of the rest of util.py that works on values: match_to_ 177-185, verify_header 257-315,
    get_value_type 354-366, replace 416-444, set_param 447-463, create_context 466-506. *)
From Verif Require Import Base Json M_ReqObj.

(** 177-185 for a text; a list of texts is not used in the package *)
Definition match_to_ (v ctype : string) : bool := starts_with v ctype.
Definition URL_ENCODED : string := "application/x-www-form-urlencoded".
(** 257-315; [ctype]: the content-type header of the answer *)
Definition verify_header (ctype : option string) (body_type : string) : res string :=
  match ctype with
  | None => Ok (if body_type =?s "" then "txt" else body_type)
  | Some t =>
      let is_json := match_to_ "application/json" t || match_to_ "application/jrd+json" t in
      if body_type =?s "" then
        Ok (if is_json then "json" else if match_to_ "application/jwt" t then "jwt"
            else if match_to_ URL_ENCODED t then "urlencoded" else "txt")
      else if body_type =?s "json" then
        if is_json then Ok "json" else if match_to_ "application/jwt" t then Ok "jwt" else Err WrongContentType
      else if body_type =?s "jwt" then
        if match_to_ "application/jwt" t then Ok "jwt" else Err WrongContentType
      else if body_type =?s "urlencoded" then
        if match_to_ URL_ENCODED t || match_to_ "text/plain" t then Ok "urlencoded" else Err WrongContentType
      else if body_type =?s "txt" then
        if match_to_ "text/plain" t || match_to_ "text/html" t then Ok "txt" else Err WrongContentType
      else Err ValueError
  end.
(** 354-366 *)
Definition get_value_type (ctype : option string) (body_type : string) : res string :=
  if body_type =?s "" then Ok "urlencoded" else verify_header ctype body_type.

(** str.format with the given keyword arguments: may raise *)
Definition formatter := string -> res string.
(** the placeholder of the first keyword argument *)
Definition placeholder (key : string) : string := ("{" ++ key ++ "}")%string.
Definition format_one (fmt : formatter) (key s : string) : res string := if contains (placeholder key) s then fmt s else Ok s.
Fixpoint format_all (fmt : formatter) (key : string) (l : list string) : res (list string) :=
  match l with
  | [] => Ok []
  | s :: r => let! s' := format_one fmt key s in let! r' := format_all fmt key r in Ok (s' :: r')
  end.
Fixpoint texts_of (l : list val) : res (list string) :=
  match l with
  | [] => Ok []
  | VStr s :: r => let! r' := texts_of r in Ok (s :: r')
  | _ :: _ => Err TypeError
  end.
(** 416-444; [key]: the name of the first keyword argument, if there are any.  The
    configuration is changed in place (also when it raises: the upper case entry is gone).
    [lc] and [uc]: the parameter in lower and in upper case. *)
Definition replace_param (fmt : formatter) (lc uc : string) (key : option string) (config : dict val) : res unit * dict val :=
  let low := match dget lc config with Some v => v | None => VNone end in
  let res := if truthy low then low else match dget uc config with Some v => v | None => VNone end in
  if truthy res then
    let config := if truthy low then config else ddel uc config in
    match key with
    | None => (Ok tt, dset lc res config)
    | Some k =>
        match res with
        | VList l => match (let! t := texts_of l in format_all fmt k t) with
                     | Ok t => (Ok tt, dset lc (VList (map VStr t)) config)
                     | Err e => (Err e, config)
                     end
        | VStr s => if contains (placeholder k) s then
                      match fmt s with Ok s' => (Ok tt, dset lc (VStr s') config) | Err e => (Err e, config) end
                    else (Ok tt, config)
        | _ => (Err TypeError, config)
        end
    end
  else (Ok tt, config).
(** 447-463: the value that the attribute of the instance gets ([None]: it is left alone) *)
Definition set_param (fmt : formatter) (lc uc : string) (key : option string) (config : dict val) : res (option val) :=
  let low := match dget lc config with Some v => v | None => VNone end in
  let res := if truthy low then low else match dget uc config with Some v => v | None => VNone end in
  if truthy res then
    match key, res with
    | None, _ => Ok (Some res)
    | Some k, VStr s => let! s' := format_one fmt k s in Ok (Some (VStr s'))
    | Some k, VList l => if existsb (fun v => match v with VStr s => s =?s placeholder k | _ => false end) l
                         then Err AttributeError else Ok (Some res)
    | Some k, VDict d => if dhas (placeholder k) d then Err AttributeError else Ok (Some res)
    | Some _, _ => Err TypeError
    end
  else Ok None.

(** 466-506: the TLS context of a server: certificate and key files, and whether clients must
    show certificates; sys.exit is [OtherError]; loading the files succeeds *)
Inductive verify_mode := CertNone | CertOptional | CertRequired.
Record tls := mktls { tls_cert : string; tls_key : string; tls_verify : verify_mode; tls_ca : option string }.
Definition in_dir (dir name : string) : string := if starts_with "/" name then name else path_join dir name.
Definition file_param (dir : string) (config : dict val) (param : string) : res (option string) :=
  match lower_or_upper config param None with
  | Some v => if truthy v then match v with VStr s => Ok (Some (in_dir dir s)) | _ => Err AttributeError end else Ok None
  | None => Ok None
  end.
Definition create_context (dir : string) (config : dict val) : res (option tls) :=
  let! cert := file_param dir config "server_cert" in
  match cert with
  | None => Ok None
  | Some c =>
      let! key := file_param dir config "server_key" in
      match key with
      | None => Ok None
      | Some k =>
          let user := match lower_or_upper config "verify_user" None with Some v => v | None => VNone end in
          if truthy user then
            let! mode := (match user with
                          | VStr "optional" => Ok CertOptional
                          | VStr "required" => Ok CertRequired
                          | _ => Err OtherError
                          end) in
            let! ca := match lower_or_upper config "ca_bundle" None with
                       | Some v => if truthy v then match v with VStr s => Ok (Some s) | _ => Err TypeError end else Ok None
                       | None => Ok None
                       end in
            Ok (Some (mktls c k mode ca))
          else Ok (Some (mktls c k CertNone None))
      end
  end.
