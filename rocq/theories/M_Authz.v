(** Model of oauth2/authorization.py, oidc/authorization.py, oauth2/utils.py *)
From Verif Require Import Base Json Msg M_State M_Ctx.

(** oauth2/utils.py 14-24 *)
Definition get_state_parameter (request_args kwargs : dict val) : res val :=
  match dget "state" kwargs with
  | Some v => Ok v
  | None => match dget "state" request_args with Some v => Ok v | None => Err MissingParameter end
  end.

(** [context.behaviour.get('response_types', [])[0]] when non-empty *)
Definition conf_response_type (c : ctx) : option val :=
  match dget "response_types" (behaviour c) with
  | Some (VList (v :: _)) => Some v
  | Some (VStr (String a _)) => Some (VStr (String a ""))   (* first character of a string *)
  | _ => None
  end.

(** oauth2/utils.py 27-61; [args = None] is the call without request arguments *)
Definition pick_redirect_uri (c : ctx) (args : option (dict val)) (response_type : option val) : res val :=
  let args := match args with Some a => a | None => [] end in
  match dget "redirect_uri" args with
  | Some v => Ok v
  | None =>
      match redirect_uris c with
      | u :: _ => Ok (VStr u)
      | [] =>
          match callback c with
          | [] => Err MissingRequiredAttribute
          | cb =>
              let rt := if otruthy response_type then response_type
                        else let r := dget "response_type" args in
                             if otruthy r then r
                             else match conf_response_type c with Some v => Some v | None => r end in
              let mode := dget "response_mode" args in
              let is o v := match o with Some w => val_eqb w v | None => false end in
              if is mode (VStr "form_post") || is rt (VList [VStr "form_post"])
              then dict_get "form_post" cb
              else if is rt (VStr "code") || is rt (VList [VStr "code"])
              then dict_get "code" cb
              else dict_get "implicit" cb
          end
      end
  end.

(** oauth2/utils.py 64-69 *)
Definition pre_construct_pick_redirect_uri (args : dict val) : M (dict val) :=
  fun c => match pick_redirect_uri c (Some args) None with
           | Ok u => (Ok (dset "redirect_uri" u args), c)
           | Err e => (Err e, c)
           end.

(** oidc/authorization.py 39-50; [rnd] stands for rndstr(32) inside create_state.
    The session key is a string. *)
Definition set_state (rnd : string) (args kwargs : dict val) : M (dict val) :=
  let st := match dget "state" kwargs with
            | Some v => v
            | None => match dget "state" args with Some v => v | None => VStr "" end
            end in
  match st with
  | VStr key =>
      fun c => let (r, d) := create_state rnd (issuer c) key (sdb c) in
               (match r with Ok k => Ok (dset "state" (VStr k) args) | Err e => Err e end, set_db d c)
  | _ => raise TypeError
  end.

(** [x in y] for y a list of strings or a string *)
Definition py_in (x : string) (v : val) : res bool :=
  match v with
  | VStr s => Ok (contains x s)
  | VList l => Ok (existsb (fun w => val_eqb w (VStr x)) l)
  | VDict d => Ok (dhas x d)
  | _ => Err TypeError
  end.

(** oidc/authorization.py 81-105 (the request arguments part; the post_args part,
    106-125, only concerns request objects and is in M_ReqObj.v).
    [rnd] stands for rndstr(32). *)
Definition oidc_pre_construct_args (rnd : string) (args : dict val) : M (dict val) :=
  fun c =>
  (* 86-93 *)
  let '(rts, args1) :=
    match dget "response_type" args with
    | Some rt => (Some [rt], args)
    | None =>
        match dget "response_types" (behaviour c) with
        | Some (VList (v :: r)) => (Some (v :: r), dset "response_type" v args)
        | _ => (None, dset "response_type" (VStr "code") args)
        end
    end in
  (* 95-99 *)
  let args2 :=
    match dget "scope" args1 with
    | None => Ok (dset "scope" (match dget "scope" (behaviour c) with
                                | Some v => v | None => strs ["openid"] end) args1)
    | Some sc =>
        match py_in "openid" sc with
        | Err e => Err e
        | Ok true => Ok args1
        | Ok false => match sc with
                      | VList l => Ok (dset "scope" (VList (l ++ [VStr "openid"])) args1)
                      | _ => Err AttributeError
                      end
        end
    end in
  match args2 with
  | Err e => (Err e, c)
  | Ok a2 =>
      (* 103-105: "code" in _response_types; an absent/empty behaviour gives None
         or [], and "in None" raises TypeError *)
      match rts with
      | None => match dget "response_types" (behaviour c) with
                | Some (VList []) => (Ok a2, c)
                | _ => (Err TypeError, c)
                end
      | Some l =>
          if existsb (fun w => val_eqb w (VStr "code")) l || existsb (fun w => val_eqb w (VStr "id_token")) l
          then (Ok (dsetdefault "nonce" (VStr rnd) a2), c)
          else (Ok a2, c)
      end
  end.

(** oidc/authorization.py 207-225 (up to and including the storing of the
    request).  [req] is the AuthorizationRequest message. *)
Definition oidc_post_construct (req : msg) : M msg :=
  match dget "scope" req with
  | None => raise (KeyError "scope")
  | Some sc =>
      match py_in "openid" sc, py_in "offline_access" sc with
      | Ok has_openid, Ok offline =>
          let store_nonce : M unit :=
            if has_openid then
              match dget "response_type" req with
              | Some (VList (VStr rt :: _)) =>
                  if contains "id_token" rt || contains "code" rt then
                    match dget "nonce" req, dget "state" req with
                    | Some (VStr n), Some (VStr s) => on_db (store_nonce2state n s)
                    | None, _ => raise (KeyError "nonce")
                    | _, None => raise (KeyError "state")
                    | _, _ => raise OtherError
                    end
                  else ret tt
              | Some (VList []) => raise IndexError
              | Some _ => raise TypeError
              | None => raise (KeyError "response_type")
              end
            else ret tt in
          store_nonce ;;;
          let req1 := if offline && negb (dhas "prompt" req) then dset "prompt" (strs ["consent"]) req else req in
          match dget "state" req1 with
          | Some (VStr s) => on_db (store_item (IMsg cAuthzRequest req1) "auth_request" s) ;;; ret req1
          | Some _ => raise OtherError
          | None => raise (KeyError "state")
          end
      | Err e, _ => raise e
      | _, Err e => raise e
      end
  end.

(** oidc/authorization.py 52-57 and oauth2/authorization.py 38-41: the session key is
    the response's state; the response itself gets __expires_at. [now] is
    time_sans_frac(). *)
Definition add_expires_at (now : Z) (resp : msg) : res msg :=
  match dget "expires_in" resp with
  | None => Ok resp
  | Some v => match to_int v with
              | Ok n => Ok (dset "__expires_at" (VInt (now + n)) resp)
              | Err e => Err e
              end
  end.
Definition authz_update_service_context (now : Z) (resp : msg) (key : string) : M msg :=
  match add_expires_at now resp with
  | Err e => raise e
  | Ok r => on_db (store_item (IMsg cAuthzResponse r) "auth_response" key) ;;; ret r
  end.

(** oauth2/authorization.py 38-41 and rp_handler.py 660-663 for the response class of the
    plain OAuth2 service *)
Definition oauth2_authz_update (now : Z) (resp : msg) (key : string) : M msg :=
  match add_expires_at now resp with
  | Err e => raise e
  | Ok r => on_db (store_item (IMsg cOAuth2AuthzResponse r) "auth_response" key) ;;; ret r
  end.

(** oauth2/authorization.py 60-83; [state] is the keyword argument *)
Definition oauth2_authz_post_parse (resp : msg) (state : string) : M msg :=
  if dhas "scope" resp then ret resp
  else if state =?s "" then ret resp
  else fun c =>
    match get_item (sdb c) cOAuth2AuthzRequest "auth_request" state with
    | Err e => (Err e, c)
    | Ok it => (Ok (match dget "scope" it with Some v => dset "scope" v resp | None => resp end), c)
    end.

(** oidc/authorization.py 64-79 *)
Definition oidc_authz_post_parse (resp : msg) (state : string) : M msg :=
  resp <- oauth2_authz_post_parse resp state ;;
  match dget (verified "id_token") resp with
  | Some idt =>
      if truthy idt then
        match dget "state" resp with
        | Some (VStr s) => fun c =>
            match get_item (sdb c) cOAuth2AuthzRequest "auth_request" s with
            | Err e => (Err e, c)
            | Ok req =>
                match dget "nonce" req with
                | Some n =>
                    if truthy n then
                      match idt with
                      | VDict claims =>
                          match dget "nonce" claims with
                          | Some m => if truthy m then (if val_eqb n m then (Ok resp, c) else (Err ValueError, c))
                                      else (Err MissingRequiredAttribute, c)
                          | None => (Err MissingRequiredAttribute, c)
                          end
                      | _ => (Err AttributeError, c)
                      end
                    else (Ok resp, c)
                | None => (Ok resp, c)
                end
            end
        | Some _ => raise TypeError
        | None => raise (KeyError "state")
        end
      else ret resp
  | None => ret resp
  end.

(** service.py 505-578 specialised to a response that has been deserialised to a
    message.  [vrf] is the message class' verify method (oidcmsg): it may raise, or
    succeed and add verified claims; [post] is post_parse_response. *)
Definition parse_deserialised (vrf : ctx -> msg -> res msg) (post : msg -> string -> M msg)
  (resp : msg) (state : string) : M msg :=
  r <- (if is_error_message resp then ret resp
        else fun c => match vrf c resp with
                      | Err e => (Err e, c)
                      | Ok resp' => post resp' state c
                      end) ;;
  match r with [] => raise ResponseError | _ => ret r end.

(** rp_handler.py 620-664: finalize_auth for one client.  sformat='dict': the
    response dictionary is loaded into an AuthorizationResponse; parse_response is
    called without a state. *)
Definition finalize_auth (vrf : ctx -> msg -> res msg) (now : Z) (iss : string) (response : dict val)
  : M msg :=
  match msg_new cAuthzResponse response with
  | Err e => raise e
  | Ok resp0 =>
      resp <- parse_deserialised vrf oidc_authz_post_parse resp0 "" ;;
      if is_error_message resp then ret resp
      else
        match dget "state" resp with
        | Some (VStr s) => fun c =>
            match get_iss (sdb c) s with
            | Err (KeyError _) => (Err (KeyError "Unknown state value"), c)
            | Err e => (Err e, c)
            | Ok i =>
                if val_eqb i (VStr iss) then
                  (r <- authz_update_service_context now resp s ;;
                   on_db (store_item (IMsg cAuthzResponse r) "auth_response" s) ;;;
                   ret r) c
                else (Err ValueError, c)
            end
        | Some _ => raise (KeyError "Unknown state value")
        | None => raise (KeyError "Unknown state value")
        end
  end.
