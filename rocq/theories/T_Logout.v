(** Property theorem C59: a back-channel logout ends the session of the user it names.
    Proofs in P_Logout.v, specification in S_Logout.v (and S_Verify.v for [believable]). *)
From Verif Require Import Base BaseP Json Msg M_State S_State M_Ctx M_Codec M_Authz M_ClientAuth M_Service M_Token M_Handler M_Verify
  S_Token S_Handler S_Trace S_Verify S_Logout P_State P_Logout Ex T_Verify.

(** C59: after any history of calls on a client, the session that backchannel_logout
    names for a request is one about which the provider told the client, in one of these
    calls, that its user is the one the logout token names; and the logout token was
    unpacked with the registered algorithm, names the client's issuer and is meant for
    the client.  [LU], [LV]: how the libraries unpack and verify logout tokens. *)
Theorem C59_logout_of_the_named_user : forall U V LU LV cl os c request args k, plain_client cl -> Forall call_ok os -> sdb c = [] -> no_overrides c ->
  (forall o W, In o os -> world o = Some W -> verifies_with W (U W) (V W)) -> checks_logout_tokens LU LV ->
  backchannel_logout (fun c req => LV (logout_verify_args c) req) request args (run_calls cl os c) = Ok k ->
  exists req raw claims claim who,
    (if request =?s "" then msg_new cBCLogout args else msg_from_urlencoded cBCLogout request) = Ok req /\
    dget "logout_token" req = Some (VStr raw) /\ genuine_logout LU c raw claims /\ names claims claim who /\ rnd32 k /\
    exists o W, In o os /\ world o = Some W /\ about_session c o k /\ told (U W) cl c W k claim who.
Proof. exact logout_of_whom. Qed.
Print Assumptions C59_logout_of_the_named_user.

(** C59, the other direction: once finalize has completed a login, and whatever is called
    afterwards short of clearing sessions, a verified logout token that names the user of
    that login (by subject, or by session id when the provider uses them) finds a session:
    that one, unless a later call was told that the same user is that of another session. *)
Theorem C59_completed_login_can_be_logged_out : forall U V cl os0 os1 c W iss resp collect info k tok idt ss c1 claim who vrf request args req v lclaims,
  plain_client cl -> Forall call_ok os0 -> Forall call_ok os1 -> sdb c = [] ->
  no_overrides c -> (forall o W, In o os1 -> world o = Some W -> verifies_with W (U W) (V W)) -> keeps_sessions os1 ->
  finalize W cl iss resp collect (run_calls cl os0 c) = (Ok (FOk info (VStr k) tok idt ss), c1) ->
  claim = "sub" \/ (claim = "sid" /\ session_ids c) -> known_as idt info claim who ->
  (if request =?s "" then msg_new cBCLogout args else msg_from_urlencoded cBCLogout request) = Ok req -> (request = "" -> args <> []) ->
  vrf (run_calls cl os1 c1) req = Ok v -> dget "__verified_logout_token" v = Some (VDict lclaims) -> names lclaims claim who ->
  exists k', backchannel_logout vrf request args (run_calls cl os1 c1) = Ok k' /\
    (k' = k \/ exists o W, In o os1 /\ world o = Some W /\ about_session c o k' /\ told (U W) cl c W k' claim who).
Proof. exact logout_finds. Qed.
Print Assumptions C59_completed_login_can_be_logged_out.

(** ** Two logins of a user, and logout tokens as the libraries have them *)
Definition lx_claims (raw : string) : dict val :=
  [("iss", VStr "https://op.example"); ("sub", VStr "u1"); ("sid", VStr "sess1"); ("aud", VList [VStr "client1"]); ("nonce", VStr (raw ++ "nonce")); ("exp", VInt 5000)].
(** ID Token [raw] has the nonce raw ++ "nonce" *)
Definition lx_unpack : unpacker := fun args raw => Ok (lx_claims raw).
Definition lx_env (state raw : string) : env :=
  mkenv 1000 (raw ++ "nonce") state "x2" "n2" "LsLsLsLsLsLsLsLsLsLsLsLsLsLsLsLs"
    (fun u m b h => Ok (mkresp 200 (Some "application/json") (json_dumps (VDict (vx_answer raw)))))
    (fun _ _ => Err OtherError)
    (fun name c m => ref_verifier lx_unpack 1000 name (gather_verify_arguments name c) m)
    (fun _ => Ok None) (fun _ _ _ _ => Ok "reqobj") ex_authn (fun n => 7 * n) (fun m v => (m ++ "digest")%string).
Lemma lx_verifies state raw : verifies_with (lx_env state raw) lx_unpack (ref_verifier lx_unpack 1000).
Proof. split; [reflexivity|]. apply ref_checks. Qed.
Definition lx_ctx : ctx := set_provider_info [("backchannel_logout_session_supported", VBool true); ("authorization_endpoint", VStr "https://op.example/authz"); ("token_endpoint", VStr "https://op.example/token")] vx_ctx.
Definition lx_client : client := mkclient lx_ctx ["authorization"; "accesstoken"] [] false.
Definition lx_k2 := "ABCDEFGHIJKLMNOPQRSTUVWXYZ012345".
Definition lx_login (state raw : string) : list call :=
  [CInit (lx_env state raw) [] None; CFinalize (lx_env state raw) "https://op.example" [("code", VStr "c0de"); ("state", VStr state)] false].
Definition lx_two : list call := lx_login ex_state "a" ++ lx_login lx_k2 "b".

(** the verification of logout tokens *)
Definition lx_logout_unpack : unpacker := fun args raw =>
  if val_eqb (match dget "allowed_sign_alg" args with Some v => v | None => VNone end) (VStr "RS256")
  then Ok (if raw =?s "bysid" then [("iss", VStr "https://op.example"); ("aud", VStr "client1"); ("sid", VStr "sess1")]
           else [("iss", VStr "https://op.example"); ("aud", VStr "client1"); ("sub", VStr "u1")])
  else Err OtherError.
Definition lx_logout_verify (args : dict val) (m : msg) : res msg :=
  match dget "logout_token" m with
  | Some (VStr raw) =>
      let! claims := lx_logout_unpack args raw in
      if negb (match dget "iss" args with Some v => match dget "iss" claims with Some w => val_eqb w v | None => false end | None => true end)
      then Err OtherError
      else if negb (match dget "aud" args with Some v => in_aud v claims | None => true end) then Err OtherError
      else Ok (dset "__verified_logout_token" (VDict claims) m)
  | _ => Err ValueError
  end.
Lemma lx_logout_checks : checks_logout_tokens lx_logout_unpack lx_logout_verify.
Proof.
  intros args m m' H t Ht. unfold lx_logout_verify in H. destruct (dget "logout_token" m) as [[| | |raw| |]|] eqn:Em; try discriminate.
  destruct (lx_logout_unpack args raw) as [claims|] eqn:Eu; [|discriminate]. cbn [rbind] in H.
  match type of H with (if negb ?b then _ else _) = _ => destruct b eqn:Ei; cbn [negb] in H; [|discriminate] end.
  match type of H with (if negb ?b then _ else _) = _ => destruct b eqn:Ea; cbn [negb] in H; [|discriminate] end. injection H as <-. rewrite dget_dset_eq in Ht. injection Ht as <-.
  exists raw, claims. split; [reflexivity|]. split; [reflexivity|]. split; [exact Eu|]. split.
  - intros v Hv. rewrite Hv in Ei. destruct (dget "iss" claims) as [w|]; [|discriminate]. apply val_eqb_eq in Ei. now subst.
  - intros v Hv _. rewrite Hv in Ea. unfold in_aud in Ea. unfold meant_for. destruct (dget "aud" claims) as [w|]; [|discriminate].
    destruct w as [| | |s|l|]; try discriminate.
    + left. apply val_eqb_eq in Ea. congruence.
    + right. exists l. split; [reflexivity|]. apply existsb_exists in Ea. destruct Ea as (w & W1 & W2). apply val_eqb_eq in W2. now subst.
Qed.
(** the hypotheses of C59_logout_of_the_named_user are met: by sub and by sid *)
Lemma lx_ok : plain_client lx_client /\ Forall call_ok lx_two /\ sdb lx_ctx = [] /\ no_overrides lx_ctx /\
  (forall o W, In o lx_two -> world o = Some W -> verifies_with W lx_unpack (ref_verifier lx_unpack 1000)).
Proof.
  split; [split; split; reflexivity|]. split; [repeat constructor; cbn; auto|]. split; [reflexivity|]. split; [reflexivity|].
  intros o W Ho HW. cbn in Ho. intuition (subst; cbn in HW; injection HW as <-; apply lx_verifies).
Qed.
Definition lx_logout (request : string) (c : ctx) : res string :=
  backchannel_logout (fun c req => lx_logout_verify (logout_verify_args c) req) request [] c.
Example C59_logout_ex : lx_logout "logout_token=bysub" (run_calls lx_client lx_two lx_ctx) = Ok lx_k2 /\
  lx_logout "logout_token=bysid" (run_calls lx_client (firstn 2 lx_two) lx_ctx) = Ok ex_state.
Proof. split; vm_compute; reflexivity. Qed.
(** a finalized login as in C59_completed_login_can_be_logged_out *)
Example C59_login_ex : exists f, fst (finalize (lx_env ex_state "a") lx_client "https://op.example" [("code", VStr "c0de"); ("state", VStr ex_state)] false
    (run_calls lx_client (firstn 1 lx_two) lx_ctx)) = Ok f /\
  match f with FOk info st _ idt _ => st = VStr ex_state /\ known_as idt info "sub" "u1" /\ known_as idt info "sid" "sess1" | _ => False end.
Proof. apply ok_with with (f := fun f => match f with FOk info (VStr s) _ (VDict (kv :: r)) _ =>
    (s =?s ex_state) && (match dget "sub" (kv :: r) with Some w => val_eqb w (VStr "u1") | None => false end) && (match dget "sid" (kv :: r) with Some w => val_eqb w (VStr "sess1") | None => false end) | _ => false end).
  - intros [|info [| | |s| |] tok [| | | | |[|kv r]] ss]; try discriminate. intros H. apply andb_prop in H. destruct H as [H H2]. apply andb_prop in H. destruct H as [H H1].
    apply String.eqb_eq in H. subst. split; [reflexivity|]. split; unfold known_as; now apply get_if.
  - vm_compute. reflexivity.
Qed.
Example C59_sid_ex : session_ids lx_ctx.
Proof. reflexivity. Qed.

(** C59 does not survive the clearing of another session of the same user: the subject
    leads to the newer session only, and clearing the older one removes that entry.  The
    newer session is still there, but a logout token that names its user raises. *)
Theorem C59_after_clearing_an_older_session_refuted : exists cl c os k k' u vrf request,
  plain_client cl /\ Forall call_ok (os ++ [CClear k']) /\ sdb c = [] /\ k <> k' /\
  backchannel_logout vrf request [] (run_calls cl os c) = Ok k /\
  get_iss (sdb (run_calls cl (os ++ [CClear k']) c)) k = Ok (VStr (issuer c)) /\
  backchannel_logout vrf request [] (run_calls cl (os ++ [CClear k']) c) = Err (KeyError u).
Proof.
  exists lx_client, lx_ctx, lx_two, lx_k2, ex_state, "u1", (fun c req => lx_logout_verify (logout_verify_args c) req), "logout_token=bysub".
  destruct lx_ok as (A1 & A2 & A3 & _). split; [exact A1|]. split; [apply Forall_app; split; [exact A2|repeat constructor]|]. split; [exact A3|].
  split; [discriminate|]. split; [vm_compute; reflexivity|]. split; vm_compute; reflexivity.
Qed.
Print Assumptions C59_after_clearing_an_older_session_refuted.
