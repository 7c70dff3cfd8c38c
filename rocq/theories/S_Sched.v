(** Sessions that are handled concurrently: what a call answers, which session a call is
    about, and the calls of one session in a history of calls. *)
From Verif Require Import Base Json Msg M_State S_State M_Ctx M_Codec M_Authz M_ClientAuth M_Service M_Token M_Handler S_Token S_Flow S_Trace.

(** what the caller gets back *)
Inductive answer :=
| AUrl (u : string) (state : string)   (* init_authorization *)
| AFinal (f : final)                   (* finalize *)
| AMsg (m : msg)                       (* finalize_auth *)
| AResp (r : response)                 (* get_tokens, refresh_access_token, get_user_info *)
| AInfo (i : info)                     (* logout *)
| ADone.                               (* clear_session *)
Definition rmap {A B} (f : A -> B) (r : res A) : res B := match r with Ok a => Ok (f a) | Err e => Err e end.
Definition answer_of (cl : client) (o : call) (c : ctx) : res answer :=
  match o with
  | CInit W reqs beh => rmap (fun us => AUrl (fst us) (snd us)) (fst (init_authorization W cl reqs beh c))
  | CFinalize W iss resp collect => rmap AFinal (fst (finalize W cl iss resp collect c))
  | CFinalizeAuth W iss resp => rmap AMsg (fst (finalize_auth (e_vrf W "authorization") (e_now W) iss resp c))
  | CTokens W st => rmap AResp (fst (get_tokens W cl st c))
  | CRefresh W st scope => rmap AResp (fst (refresh_access_token W cl st scope c))
  | CUserInfo W st tok => rmap AResp (fst (get_user_info W cl st tok c))
  | CLogout W st uri => rmap AInfo (fst (logout W cl st uri c))
  | CClear st => rmap (fun _ => ADone) (fst (on_db (remove_state st) c))
  end.

(** the session a call is about: the one it begins, the one the response names in its
    'state' parameter, or the one whose key the caller gives *)
Definition state_of (resp : dict val) : option string :=
  match msg_new cAuthzResponse resp with
  | Ok m => match dget "state" m with Some (VStr s) => Some s | _ => None end
  | Err _ => None
  end.
Definition session_of (o : call) : option string :=
  match o with
  | CInit W _ _ => Some (e_state W)
  | CFinalize _ _ resp _ | CFinalizeAuth _ _ resp => state_of resp
  | CTokens _ st | CRefresh _ st _ | CUserInfo _ st _ | CLogout _ st _ | CClear st => Some st
  end.
Definition about (k : string) (o : call) : bool := match session_of o with Some s => s =?s k | None => false end.
(** the calls of session [k], in order *)
Definition calls_of (k : string) (os : list call) : list call := filter (about k) os.
(** what the calls of session [k] answer in the history [os] *)
Fixpoint answers (cl : client) (k : string) (os : list call) (c : ctx) : list (res answer) :=
  match os with
  | [] => []
  | o :: r => if about k o then answer_of cl o c :: answers cl k r (run_call cl o c) else answers cl k r (run_call cl o c)
  end.

(** two answers that a caller sees as the same; for two failures the exception may be
    another *)
Definition same_outcome (r1 r2 : res answer) : Prop :=
  r1 = r2 \/ exists e1 e2, r1 = Err e1 /\ r2 = Err e2.

(** the world of a call.  Verification of a response and the making of a request object do
    not look at the session store, and verification leaves the 'state' as it is. *)
Definition world_of (o : call) : option env :=
  match o with
  | CInit W _ _ | CFinalize W _ _ _ | CFinalizeAuth W _ _ | CTokens W _ | CRefresh W _ _ | CUserInfo W _ _ | CLogout W _ _ => Some W
  | CClear _ => None
  end.
Definition tame (W : env) : Prop :=
  (forall name d c m, e_vrf W name (set_db d c) m = e_vrf W name c m) /\
  (forall c m m', e_vrf W "authorization" c m = Ok m' -> dget "state" m' = dget "state" m) /\
  (forall d c m p kw, e_reqobj W (set_db d c) m p kw = e_reqobj W c m p kw).
Definition tame_call (o : call) : Prop := match world_of o with Some W => tame W | None => True end.
(** no other session is begun with a nonce of session [k] *)
Definition own_nonces (c : ctx) (k : string) (os : list call) : Prop :=
  forall W reqs beh W' reqs' beh' n, In (CInit W reqs beh) os -> In (CInit W' reqs' beh') os ->
    e_state W = k -> uses_nonce c W reqs n -> uses_nonce c W' reqs' n -> e_state W' = k.
(** a history in which session [k] is not cleared *)
Definition schedule (c : ctx) (k : string) (os : list call) : Prop :=
  Forall call_ok os /\ Forall tame_call os /\ own_nonces c k os /\ ~ In (CClear k) os.
