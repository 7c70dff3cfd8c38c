(** A handler that keeps clients for many providers: which client a call is carried out
    by, what the caller of the handler gets back, and the calls of one login. *)
From Verif Require Import Base Json Msg M_State S_State M_Ctx M_Codec M_Authz M_ClientAuth M_Service M_Token M_Handler S_Token S_Flow S_Trace S_Sched S_Route.

(** the client that carries out the call: the one that is named, or the one the session key
    leads to (rp_handler.py 104-121, 457-458) *)
Definition client_for (h : handler) (o : hcall) : res string :=
  match o with
  | HInit _ iss _ _ | HFinalize _ iss _ _ | HFinalizeAuth _ iss _ => Ok iss
  | HTokens _ st | HRefresh _ st _ | HUserInfo _ st _ | HLogout _ st _ | HClear st => client_of_session h st
  | HClose _ st iss _ => if iss =?s "" then client_of_session h st else Ok iss
  end.
(** what the caller gets back *)
Definition hanswer (h : handler) (o : hcall) : res answer :=
  match o with
  | HInit W iss reqs beh => rmap (fun us => AUrl (fst us) (snd us)) (fst (on_client iss (fun cl => init_authorization W cl reqs beh) h))
  | HFinalize W iss resp collect => rmap AFinal (fst (h_finalize W iss resp collect h))
  | HFinalizeAuth W iss resp => rmap AMsg (fst (on_client iss (fun cl => finalize_auth (e_vrf W "authorization") (e_now W) iss resp) h))
  | HTokens W st => rmap AResp (fst (h_get_tokens W st h))
  | HRefresh W st scope => rmap AResp (fst (h_refresh W st scope h))
  | HUserInfo W st tok => rmap AResp (fst (h_user_info W st tok h))
  | HLogout W st uri => rmap AInfo (fst (h_logout W st uri h))
  | HClose W st iss uri => rmap AInfo (fst (h_close W st iss uri h))
  | HClear st => rmap (fun _ => ADone) (fst (h_clear st h))
  end.
(** the call belongs to the login with key [k] at provider [i] *)
Definition concerns (i k : string) (o : hcall) : bool :=
  match o with
  | HInit W iss _ _ => (iss =?s i) && (e_state W =?s k)
  | HFinalize _ iss resp _ | HFinalizeAuth _ iss resp => (iss =?s i) && (match state_of resp with Some s => s =?s k | None => false end)
  | HTokens _ st | HRefresh _ st _ | HUserInfo _ st _ | HLogout _ st _ | HClear st => st =?s k
  | HClose _ st iss _ => (st =?s k) && ((iss =?s "") || (iss =?s i))
  end.
(** the calls of that login, in order, and what they answer in a history of calls *)
Definition hcalls_of (i k : string) (os : list hcall) : list hcall := filter (concerns i k) os.
Fixpoint hanswers (i k : string) (os : list hcall) (h : handler) : list (res answer) :=
  match os with
  | [] => []
  | o :: r => if concerns i k o then hanswer h o :: hanswers i k r (run_hcall h o) else hanswers i k r (run_hcall h o)
  end.

Definition hworld (o : hcall) : option env :=
  match o with
  | HInit W _ _ _ | HFinalize W _ _ _ | HFinalizeAuth W _ _ | HTokens W _ | HRefresh W _ _ | HUserInfo W _ _
  | HLogout W _ _ | HClose W _ _ _ => Some W
  | HClear _ => None
  end.
(** a history in which key [k] is drawn for no other provider, the nonces of login [k] for no
    other login at the provider, and login [k] is not cleared *)
Definition hschedule (c : ctx) (i k : string) (os : list hcall) : Prop :=
  Forall hcall_ok os /\ (forall o W, In o os -> hworld o = Some W -> tame W) /\ begun_only_at k i os /\
  (forall W reqs beh W' reqs' beh' n, In (HInit W i reqs beh) os -> In (HInit W' i reqs' beh') os ->
     e_state W = k -> uses_nonce c W reqs n -> uses_nonce c W' reqs' n -> e_state W' = k) /\
  ~ In (HClear k) os.
