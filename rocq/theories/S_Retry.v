(** Attempts to complete a login that fail, or stop, on the way. *)
From Verif Require Import Base Json Msg M_State S_State M_Ctx M_Codec M_Authz M_ClientAuth M_Service M_Token M_Handler
  S_Token S_Handler S_Flow S_Trace S_Sched.

(** the tokens of session [k] are fetched from the token endpoint: by the response type of
    its request, or because the caller asks for it ([collect]) *)
Definition from_endpoint (d : db) (k : string) (collect : bool) : Prop :=
  exists rq rt ws sa si,
    get_item d cAuthzRequest "auth_request" k = Ok rq /\ dget "response_type" rq = Some (VList rt) /\ words_are rt ws /\
    In (ws, (sa, si)) flow_table /\ (sa = Endpoint \/ (sa = Front /\ collect = true)).
(** what an attempt to complete the login of session [k] may write: the responses it got,
    and the subject and the session id of the user *)
Definition attempt_op (d : db) (k : string) (collect : bool) (o : op) : Prop :=
  match o with
  | Store _ _ t q => q = k /\ (t = "auth_response" \/ t = "user_info" \/ (t = "token_response" /\ from_endpoint d k collect))
  | Bind x _ q => q = k /\ (x = "subject id" \/ x = "session id")
  | _ => False
  end.
(** the client when an attempt was stopped after the writes [ops] *)
Definition stopped_after (c : ctx) (ops : list op) : ctx := set_db (snd (crun (sdb c) ops)) c.

(** calls that try to complete the login of session [k]: finalize (with the same choice of
    [collect]) or its parts finalize_auth and get_user_info *)
Definition attempt (k : string) (collect : bool) (o : call) : Prop :=
  match o with
  | CFinalize W _ resp b => state_of resp = Some k /\ b = collect /\ tame W
  | CFinalizeAuth W _ resp => state_of resp = Some k /\ tame W
  | CUserInfo W st _ => st = k /\ tame W
  | _ => False
  end.

(** what can be read about session [k], but for the claims that were fetched *)
Definition reads_the_same (d1 d2 : db) (k : string) : Prop :=
  (forall cc t, t <> "user_info" -> get_item d1 cc t k = get_item d2 cc t k) /\ get_iss d1 k = get_iss d2 k /\
  (forall now, has_active_authentication now d1 k = has_active_authentication now d2 k) /\
  (forall now, get_valid_access_token now d1 k = get_valid_access_token now d2 k) /\
  (forall n, get_state_by_nonce d1 n = Ok k <-> get_state_by_nonce d2 n = Ok k).
(** finalize answers the same for the clients [c] and [c'], and when it answers with a login,
    what is read about the session is the same too *)
Definition finalize_again (cl : client) (W : env) (iss : string) (resp : dict val) (collect : bool) (k : string) (c c' : ctx) : Prop :=
  same_outcome (answer_of cl (CFinalize W iss resp collect) c) (answer_of cl (CFinalize W iss resp collect) c') /\
  (forall info st tok idt ss, answer_of cl (CFinalize W iss resp collect) c = Ok (AFinal (FOk info st tok idt ss)) ->
     reads_the_same (sdb (run_call cl (CFinalize W iss resp collect) c)) (sdb (run_call cl (CFinalize W iss resp collect) c')) k).
