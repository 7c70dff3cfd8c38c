(** Model of the calls of the handler when several threads of one application use the same
    client: the functions of M_Handler.v once more, cut into steps between which other
    threads may run.  A step is what a thread does without interruption.  The cuts are:
    before and after every HTTP request (oauth2/__init__.py 80-99 and 145-188: the thread
    waits for the peer), before an answer is stored, and between the statements of the
    methods of RPHandler.  Within one step (the construction of one request, the
    verification of one response, one read or write of the store) threads are not switched:
    this is a simplification. *)
From Verif Require Import Base Json Msg M_State S_State M_Ctx M_Codec M_Authz M_ClientAuth M_Service M_Token M_Handler S_Trace S_Sched.

(** what a thread still has to do: it is done, or it does the step [m] and goes on with [k] *)
Inductive prog (A : Type) : Type :=
| Done (r : res A)
| Step (B : Type) (m : M B) (k : B -> prog A).
Arguments Done {A} r.
Arguments Step {A} B m k.
Fixpoint pbind {A B} (p : prog A) (f : A -> prog B) : prog B :=
  match p with
  | Done (Ok a) => f a
  | Done (Err e) => Done (Err e)
  | Step T m k => Step T m (fun x => pbind (k x) f)
  end.
Definition step {A} (m : M A) : prog A := Step A m (fun a => Done (Ok a)).
Definition pret {A} (a : A) : prog A := Done (Ok a).
Definition praise {A} (e : exn) : prog A := Done (Err e).
Definition plift {A} (r : res A) : prog A := Done r.
Notation "x <~ p ;; q" := (pbind p (fun x => q)) (at level 61, p at next level, right associativity).

(** oauth2/__init__.py 145-188, after the request is made: the answer arrives, and then it
    is stored *)
Definition service_request_p (http : http_client) (jwt_of : jwt_oracle) (s : service) (u method : string)
  (b : option body) (rbt : string) (h : headers) (st : string) : prog response :=
  r <~ step (get_response http jwt_of s u method b rbt h st) ;;
  step (if has_error r then ret r
        else match r with
             | RMsg m => m' <- s_update s m st ;; ret (RMsg m')
             | RHttp hr => match s_redirect s with Some e => raise e | None => ret r end
             | RText _ => ret r
             end).
(** oauth2/__init__.py 80-99 *)
Definition do_request_p (E : authn_env) (http : http_client) (jwt_of : jwt_oracle) (s : service)
  (rbt : string) (args : dict val) (authn : string) (kwargs : dict val) : prog response :=
  i <~ step (get_request_parameters E s args "" "" authn kwargs) ;;
  service_request_p http jwt_of s (i_url i) (i_method i) (i_body i) (if rbt =?s "" then s_resp_type s else rbt) (i_headers i)
    (match dget "state" kwargs with Some (VStr x) => x | _ => "" end).
(** oauth2/__init__.py 84 *)
Definition do_request_named_p (W : env) (cl : client) (s : service) (args : dict val) (authn : string)
  (kwargs : dict val) : prog response :=
  if has_service cl (s_name s) then do_request_p (e_authn W) (e_http W) (e_jwt W) s "" args authn kwargs
  else praise (KeyError (s_name s)).
Definition checked (r : response) : prog response := if is_error_response r then praise OidcServiceError else pret r.

(** rp_handler.py 492-535 *)
Definition token_args (state : string) : M (dict val * string) :=
  fun c => ((let! ar := get_item (sdb c) cAuthzResponse "auth_response" state in
             let! rq := get_item (sdb c) cAuthzRequest "auth_request" state in
             let! code := dict_get "code" ar in
             let! ru := dict_get "redirect_uri" rq in
             let! am := client_authn_method c in
             Ok ([("code", code); ("state", VStr state); ("redirect_uri", ru);
                  ("grant_type", VStr "authorization_code"); ("client_id", VStr (client_id c));
                  ("client_secret", VStr (client_secret c))], am)), c).
Definition get_tokens_p (W : env) (cl : client) (state : string) : prog response :=
  a <~ step (token_args state) ;;
  r <~ do_request_named_p W cl (token_svc W cl) (fst a) (snd a) [("state", VStr state)] ;;
  checked r.
(** rp_handler.py 537-573 *)
Definition refresh_access_token_p (W : env) (cl : client) (state scope : string) : prog response :=
  am <~ step (fun c => (client_authn_method c, c)) ;;
  r <~ do_request_named_p W cl (refresh_svc W cl) (if scope =?s "" then [] else [("scope", VStr scope)]) am [("state", VStr state)] ;;
  checked r.
(** rp_handler.py 575-605 *)
Definition get_user_info_p (W : env) (cl : client) (state access_token : string) : prog response :=
  _ <~ step (if access_token =?s ""
             then read_db (fun d => multiple_extend_request_args d [] state ["access_token"] token_items false) ;;; ret tt
             else ret tt) ;;
  r <~ do_request_named_p W cl (userinfo_svc W cl) [("access_token", VStr access_token)] "" [("state", VStr state)] ;;
  checked r.

(** rp_handler.py 666-735 *)
Definition tokens_from_endpoint_p (W : env) (cl : client) (state : string) : prog tokens :=
  r <~ get_tokens_p W cl state ;;
  a <~ plift (dict_get "access_token" (msg_of r)) ;;
  pret (mktokens a (val_or_none (dget (verified "id_token") (msg_of r)))).
Definition get_access_and_id_token_p (W : env) (cl : client) (resp : msg) (state : string) (collect : bool)
  : prog tokens :=
  rq <~ step (read_db (fun d => get_item d cAuthzRequest "auth_request" state)) ;;
  rt <~ plift (match dget "response_type" rq with
               | Some (VList l) => Ok l
               | Some _ => Err TypeError
               | None => Err (KeyError "response_type")
               end) ;;
  idt <~ plift (if one_of rt [["id_token"]; ["id_token"; "token"]; ["code"; "id_token"; "token"]]
                then dict_get (verified "id_token") resp else Ok VNone) ;;
  if one_of rt [["token"]; ["id_token"; "token"]; ["code"; "token"]; ["code"; "id_token"; "token"]] then
    at_ <~ plift (dict_get "access_token" resp) ;;
    if collect then tokens_from_endpoint_p W cl state
    else pret (mktokens at_ idt)
  else if one_of rt [["code"]; ["code"; "id_token"]] then tokens_from_endpoint_p W cl state
  else pret (mktokens VNone idt).

(** rp_handler.py 799-812 *)
Definition bind_subject_p (idt : val) (info : dict val) (state : string) : prog unit :=
  match idt with
  | VDict (kv :: r) =>
      let claims := kv :: r in
      c0 <~ step (asks sid_support) ;;
      _ <~ (match c0, dget "sid" claims with
            | true, Some v => step (bind_value "session id" v state)
            | _, _ => pret tt
            end) ;;
      s <~ plift (dict_get "sub" claims) ;;
      step (bind_value "subject id" s state)
  | _ =>
      s <~ plift (dict_get "sub" info) ;;
      step (bind_value "subject id" s state)
  end.
(** rp_handler.py 738-821 *)
Definition finalize_p (W : env) (cl : client) (iss : string) (response : dict val) (collect : bool) : prog final :=
  ar <~ step (finalize_auth (e_vrf W "authorization") (e_now W) iss response) ;;
  if is_error_message ar then
    s <~ plift (dict_get "state" ar) ;; e <~ plift (dict_get "error" ar) ;; pret (FError s e)
  else
    match dget "state" ar with
    | Some (VStr st) =>
        t <~ get_access_and_id_token_p W cl ar st collect ;;
        info <~ (if has_service cl "userinfo" && truthy (t_access t) then
                   match t_access t with
                   | VStr a => r <~ get_user_info_p W cl st a ;; pret (msg_of r)
                   | _ => praise OtherError
                   end
                 else match t_id t with
                      | VDict (kv :: r) => pret (userinfo_in_id_token (kv :: r))
                      | _ => pret []
                      end) ;;
        _ <~ bind_subject_p (t_id t) info st ;;
        pret (FOk info (VStr st) (t_access t) (t_id t)
               (match dget "session_state" ar with Some v => v | None => VStr "" end))
    | _ => praise (KeyError "state")
    end.
(** rp_handler.py 362-423 *)
Definition init_authorization_p (W : env) (cl : client) (reqs : dict val) (beh : option (dict val))
  : prog (string * string) :=
  args <~ step (fun c => (authz_request_args W c reqs, c)) ;;
  iss <~ step (asks issuer) ;;
  st <~ step (on_db (create_state (e_state W) iss "")) ;;
  _ <~ step (on_db (store_nonce2state (e_nonce W) st)) ;;
  i <~ step (get_request_parameters (e_authn W) (authz_svc W cl) (dset "state" (VStr st) args) "" "" ""
         (match beh with Some b => [("behaviour_args", VDict b)] | None => [] end)) ;;
  pret (i_url i, st).

(** the work of a thread that makes one call *)
Definition pmap {A B} (f : A -> B) (p : prog A) : prog B := pbind p (fun a => pret (f a)).
Definition prog_of (cl : client) (o : call) : prog answer :=
  match o with
  | CInit W reqs beh => pmap (fun us => AUrl (fst us) (snd us)) (init_authorization_p W cl reqs beh)
  | CFinalize W iss resp collect => pmap AFinal (finalize_p W cl iss resp collect)
  | CFinalizeAuth W iss resp => pmap AMsg (step (finalize_auth (e_vrf W "authorization") (e_now W) iss resp))
  | CTokens W st => pmap AResp (get_tokens_p W cl st)
  | CRefresh W st scope => pmap AResp (refresh_access_token_p W cl st scope)
  | CUserInfo W st tok => pmap AResp (get_user_info_p W cl st tok)
  | CLogout W st uri => pmap AInfo (step (logout W cl st uri))
  | CClear st => pmap (fun _ => ADone) (step (on_db (remove_state st)))
  end.

(** ** threads *)
(** the threads of the application and the client's context, which they share *)
Definition pool := nat -> prog answer.
Definition put (i : nat) (p : prog answer) (P : pool) : pool := fun j => if Nat.eqb j i then p else P j.
(** thread [i] does its next step; a thread that is done does nothing *)
Definition move (s : pool * ctx) (i : nat) : pool * ctx :=
  match fst s i with
  | Done _ => s
  | Step T m k => let (r, c) := m (snd s) in
                  (put i (match r with Ok x => k x | Err e => Done (Err e) end) (fst s), c)
  end.
(** the threads move in the order [sched] *)
Definition play (sched : list nat) (s : pool * ctx) : pool * ctx := fold_left move sched s.
(** thread [i] makes the call [jobs i] *)
Definition start (cl : client) (jobs : nat -> call) : pool := fun i => prog_of cl (jobs i).
(** what the thread's call has answered, if it is done *)
Definition outcome (p : prog answer) : option (res answer) := match p with Done r => Some r | Step _ _ _ => None end.
