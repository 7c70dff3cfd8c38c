(** The calls an application makes on one client, and histories of them. *)
From Verif Require Import Base Json Msg M_State S_State M_Ctx M_Codec M_Authz M_ClientAuth M_Service M_Token M_Handler S_Token S_Flow.

(** One call; every call has its own outside world (clock, random strings, peer). *)
Inductive call :=
| CInit (W : env) (reqs : dict val) (beh : option (dict val))         (* init_authorization *)
| CFinalize (W : env) (iss : string) (resp : dict val) (collect : bool)  (* finalize *)
| CFinalizeAuth (W : env) (iss : string) (resp : dict val)            (* finalize_auth *)
| CTokens (W : env) (state : string)                                  (* get_tokens *)
| CRefresh (W : env) (state scope : string)                           (* refresh_access_token *)
| CUserInfo (W : env) (state token : string)                          (* get_user_info *)
| CLogout (W : env) (state uri : string)                              (* logout *)
| CClear (state : string).                                            (* clear_session *)

(** the context after the call, whether it succeeded or raised *)
Definition run_call (cl : client) (o : call) (c : ctx) : ctx :=
  match o with
  | CInit W reqs beh => snd (init_authorization W cl reqs beh c)
  | CFinalize W iss resp collect => snd (finalize W cl iss resp collect c)
  | CFinalizeAuth W iss resp => snd (finalize_auth (e_vrf W "authorization") (e_now W) iss resp c)
  | CTokens W st => snd (get_tokens W cl st c)
  | CRefresh W st scope => snd (refresh_access_token W cl st scope c)
  | CUserInfo W st tok => snd (get_user_info W cl st tok c)
  | CLogout W st uri => snd (logout W cl st uri c)
  | CClear st => snd (on_db (remove_state st) c)
  end.
Definition run_calls (cl : client) (os : list call) (c : ctx) : ctx := fold_left (fun c o => run_call cl o c) os c.

(** the nonces of a login: the one that is drawn, and the one of the request when the
    configuration or the caller names another *)
Definition uses_nonce (c : ctx) (W : env) (reqs : dict val) (n : string) : Prop :=
  n = e_nonce W \/ dget "nonce" (dupdate (dupdate [("nonce", VStr (e_nonce W))] (config_request_args c)) reqs) = Some (VStr n).

(** session keys are as the library makes them *)
Definition call_ok (o : call) : Prop :=
  match o with
  | CInit W _ _ => rnd32 (e_state W)
  | CFinalize _ _ _ _ | CFinalizeAuth _ _ _ => True   (* the state of a response is whatever the peer sent *)
  | CTokens _ st | CRefresh _ st _ | CUserInfo _ st _ | CLogout _ st _ | CClear st => rnd32 st
  end.
(** the call does not begin a session with key [k] again and does not clear [k] *)
Definition leaves (k : string) (o : call) : Prop :=
  match o with
  | CInit W _ _ => e_state W <> k
  | CClear st => st <> k
  | _ => True
  end.
(** what calls store in the session: the kinds of items that are written by responses *)
Definition response_items : list string := ["auth_response"; "token_response"; "user_info"].
(** clients whose services have no extra pre/post_construct arguments configured *)
Definition plain_client (cl : client) : Prop :=
  plain_conf (conf_of cl "authorization") /\ dget "pre_construct" (conf_of cl "end_session") = None.
