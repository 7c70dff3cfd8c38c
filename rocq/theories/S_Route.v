(** The calls an application makes on a handler with several clients. *)
From Verif Require Import Base Json Msg M_State S_State M_Ctx M_Codec M_Authz M_ClientAuth M_Service M_Token M_Handler S_Flow S_Trace.

(** One call of the handler's API.  Calls with a session key find their client through
    the key, the others name the issuer. *)
Inductive hcall :=
| HInit (W : env) (iss : string) (reqs : dict val) (beh : option (dict val))
| HFinalize (W : env) (iss : string) (resp : dict val) (collect : bool)
| HFinalizeAuth (W : env) (iss : string) (resp : dict val)
| HTokens (W : env) (state : string)
| HRefresh (W : env) (state scope : string)
| HUserInfo (W : env) (state token : string)
| HLogout (W : env) (state uri : string)
| HClose (W : env) (state iss uri : string)
| HClear (state : string).
Definition run_hcall (h : handler) (o : hcall) : handler :=
  match o with
  | HInit W iss reqs beh => snd (on_client iss (fun cl => init_authorization W cl reqs beh) h)
  | HFinalize W iss resp collect => snd (h_finalize W iss resp collect h)
  | HFinalizeAuth W iss resp =>
      snd (on_client iss (fun cl => finalize_auth (e_vrf W "authorization") (e_now W) iss resp) h)
  | HTokens W st => snd (h_get_tokens W st h)
  | HRefresh W st scope => snd (h_refresh W st scope h)
  | HUserInfo W st tok => snd (h_user_info W st tok h)
  | HLogout W st uri => snd (h_logout W st uri h)
  | HClose W st iss uri => snd (h_close W st iss uri h)
  | HClear st => snd (h_clear st h)
  end.
Definition run_hcalls (h : handler) (os : list hcall) : handler := fold_left run_hcall os h.

(** session keys are as the library makes them *)
Definition hcall_ok (o : hcall) : Prop :=
  match o with
  | HInit W _ _ _ => rnd32 (e_state W)
  | HFinalize _ _ _ _ | HFinalizeAuth _ _ _ => True
  | HTokens _ st | HRefresh _ st _ | HUserInfo _ st _ | HLogout _ st _ | HClose _ st _ _ | HClear st => rnd32 st
  end.
(** the call does not begin a session with key [k] again and does not clear [k] *)
Definition hleaves (k : string) (o : hcall) : Prop :=
  match o with
  | HInit W _ _ _ => e_state W <> k
  | HClear st => st <> k
  | _ => True
  end.
(** no session key is drawn for two issuers *)
Definition begun_only_at (k i : string) (os : list hcall) : Prop :=
  forall W iss reqs beh, In (HInit W iss reqs beh) os -> e_state W = k -> iss = i.
(** a handler whose clients have no sessions yet *)
Definition fresh_handler (h : handler) : Prop :=
  NoDup (dkeys h) /\
  forall i cl, dget i h = Some cl -> plain_client cl /\ sdb (cl_ctx cl) = [] /\ issuer (cl_ctx cl) = i /\ i <> "".
(** client [i] of the handler has a session [k] *)
Definition knows (h : handler) (i k : string) : Prop :=
  exists cl v, dget i h = Some cl /\ get_iss (sdb (cl_ctx cl)) k = Ok v.
