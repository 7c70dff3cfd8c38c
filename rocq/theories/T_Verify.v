(** Property theorem C51: ID Tokens are believed only after verification against the
    client's own provider, client id and registered algorithms.  Proofs in P_Verify.v,
    specification in S_Verify.v. *)
From Verif Require Import Base BaseP Json Msg M_State S_State M_Ctx M_Codec M_Authz M_ClientAuth M_Service M_Token M_Handler M_Verify
  S_Token S_Handler S_Trace S_Verify P_State P_Verify Ex.

(** C51: after any history of calls on a client (init_authorization, finalize_auth,
    finalize, get_tokens, refresh_access_token, get_user_info, logout, clear_session), each
    with its own peer, clock and keys, every verified ID Token found in the session store
    was unpacked from a signed token during one of these calls, names the client's issuer,
    is meant for the client and was not expired then.  Unless that call was a refresh, the
    accepted algorithms are the registered ones.  [cc]: the class with which the item is read. *)
Theorem C51_stored_id_tokens_are_believable : forall U V cl os c k t cc m idt,
  plain_client cl -> Forall call_ok os -> sdb c = [] -> no_overrides c ->
  (forall o W, In o os -> world o = Some W -> verifies_with W (U W) (V W)) ->
  rnd32 k -> In t ["auth_response"; "token_response"; "refresh_token_response"] -> In cc [cMessage; cTokenResponse; cAuthzResponse] ->
  get_item (sdb (run_calls cl os c)) cc t k = Ok m -> dget "__verified_id_token" m = Some idt ->
  exists o W args claims, In o os /\ world o = Some W /\ idt = VDict claims /\ believable (U W) (e_now W) c args claims /\
    ((forall st scope, o <> CRefresh W st scope) -> with_registered_algs c args).
Proof.
  intros U V cl os c k t cc m idt PC OK E NO HV K Ht Hc. eapply stored_believed; eauto.
  cbn in Hc. destruct Hc as [<-|[<-|[<-|[]]]]; repeat split.
Qed.
Print Assumptions C51_stored_id_tokens_are_believable.

(** C51: the ID Token that finalize hands to the application *)
Theorem C51_finalize_id_token_is_believable : forall U V W cl iss resp collect c info st tok idt ss c',
  no_overrides c -> verifies_with W U V ->
  finalize W cl iss resp collect c = (Ok (FOk info st tok idt ss), c') ->
  idt = VNone \/ exists args claims, idt = VDict claims /\ believable U (e_now W) c args claims /\ with_registered_algs c args.
Proof. exact finalize_believed. Qed.
Print Assumptions C51_finalize_id_token_is_believable.

(** C51: the responses of the provider (authorization, token, user info) are verified with
    verification on, the client's own issuer and identifier, the configured clock tolerance
    (else 15 seconds), the algorithms registered for the kind of response, and with leave to
    lack a key identifier only if the configuration gives it. *)
Theorem C51_verification_arguments : forall name c, no_overrides c -> In name ["authorization"; "accesstoken"; "userinfo"] ->
  let args := gather_verify_arguments name c in
  dget "verify" args = Some (VBool true) /\ dget "iss" args = Some (VStr (issuer c)) /\
  (client_id c <> "" -> dget "client_id" args = Some (VStr (client_id c))) /\
  dget "skew" args = Some (match dget "clock_skew" (config c) with Some v => v | None => VInt 15 end) /\
  dget "allow_missing_kid" args = dget "missing_kid" (allow c) /\
  (name = "userinfo" -> forall arg par, In (arg, par) [("sigalg", "userinfo_signed_response_alg"); ("encalg", "userinfo_encrypted_response_alg");
                                                       ("encenc", "userinfo_encrypted_response_enc")] -> dget arg args = dget par (registration_response c)) /\
  (name <> "userinfo" -> with_registered_algs c args).
Proof.
  intros name c NO Hn. cbv zeta.
  assert (M : forall k kw, dget k (with_missing_kid c kw) = if k =?s "allow_missing_kid" then match dget "missing_kid" (allow c) with Some v => Some v | None => dget k kw end else dget k kw).
  { intros k kw. unfold with_missing_kid. destruct (String.eqb_spec k "allow_missing_kid") as [->|D]; destruct (dget "missing_kid" (allow c)); auto; [apply dget_dset_eq|].
    apply dget_dset_neq. congruence. }
  assert (R : forall a1 p1 a2 p2 a3 p3 k kw, dget k (from_registration [(a1, p1); (a2, p2); (a3, p3)] c kw) =
    if a3 =?s k then match dget p3 (registration_response c) with Some v => Some v | None =>
      if a2 =?s k then match dget p2 (registration_response c) with Some v => Some v | None =>
        if a1 =?s k then match dget p1 (registration_response c) with Some v => Some v | None => dget k kw end else dget k kw end
      else if a1 =?s k then match dget p1 (registration_response c) with Some v => Some v | None => dget k kw end else dget k kw end
    else if a2 =?s k then match dget p2 (registration_response c) with Some v => Some v | None =>
        if a1 =?s k then match dget p1 (registration_response c) with Some v => Some v | None => dget k kw end else dget k kw end
      else if a1 =?s k then match dget p1 (registration_response c) with Some v => Some v | None => dget k kw end else dget k kw).
  { intros. unfold from_registration. cbn [fold_left fst snd].
    assert (ST : forall a p d, dget k (match dget p (registration_response c) with Some v => dset a v d | None => d end) =
      if a =?s k then match dget p (registration_response c) with Some v => Some v | None => dget k d end else dget k d).
    { intros a p d. destruct (dget p (registration_response c)); [apply dget_dset|now destruct (a =?s k)]. }
    rewrite !ST. reflexivity. }
  assert (V : forall kw, with_verify_args c kw = kw) by (intros kw; unfold with_verify_args, no_overrides in *; now rewrite NO).
  assert (N : forall x, match x with Some v => Some v | None => None end = x :> option val) by now intros [|].
  cbn in Hn. destruct Hn as [<-|[<-|[<-|[]]]];
    unfold gather_verify_arguments; cbn [String.eqb eqs Ascii.eqb Bool.eqb];
    unfold authz_verify_args, token_verify_args, userinfo_verify_args; rewrite ?V; unfold IDT2REG, UI2REG, with_registered_algs, clock_skew.
  - set (kw := if client_id c =?s "" then _ else _).
    assert (K : dget "verify" kw = Some (VBool true) /\ dget "iss" kw = Some (VStr (issuer c)) /\ (client_id c <> "" -> dget "client_id" kw = Some (VStr (client_id c))) /\
      dget "skew" kw = Some (match dget "clock_skew" (config c) with Some v => v | None => VInt 15 end) /\
      dget "allow_missing_kid" kw = None /\ dget "sigalg" kw = None /\ dget "encalg" kw = None /\ dget "encenc" kw = None).
    { subst kw. destruct (client_id c =?s "") eqn:E; [apply eqb_true_iff in E|]; (repeat split; try reflexivity); congruence. }
    clearbody kw. destruct K as (K1 & K2 & K3 & K4 & K5 & K6 & K7 & K8). rewrite !M, !R. cbn [String.eqb eqs Ascii.eqb Bool.eqb].
    split; [exact K1|]. split; [exact K2|]. split; [exact K3|]. split; [exact K4|]. split; [rewrite K5; apply N|]. split; [discriminate|].
    intros _ arg par Hin. cbn in Hin. destruct Hin as [X|[X|[X|[]]]]; injection X as <- <-; rewrite M, R; cbn [String.eqb eqs Ascii.eqb Bool.eqb]; rewrite ?K6, ?K7, ?K8; apply N.
  - rewrite !M, !R. cbn [String.eqb eqs Ascii.eqb Bool.eqb dget].
    split; [reflexivity|]. split; [reflexivity|]. split; [reflexivity|]. split; [reflexivity|]. split; [apply N|]. split; [discriminate|].
    intros _ arg par Hin. cbn in Hin. destruct Hin as [X|[X|[X|[]]]]; injection X as <- <-; rewrite M, R; cbn [String.eqb eqs Ascii.eqb Bool.eqb dget]; apply N.
  - rewrite !M, !R. cbn [String.eqb eqs Ascii.eqb Bool.eqb dget].
    split; [reflexivity|]. split; [reflexivity|]. split; [reflexivity|]. split; [reflexivity|]. split; [apply N|]. split; [|congruence].
    intros _ arg par Hin. cbn in Hin. destruct Hin as [X|[X|[X|[]]]]; injection X as <- <-; rewrite M, R; cbn [String.eqb eqs Ascii.eqb Bool.eqb dget]; apply N.
Qed.
Print Assumptions C51_verification_arguments.

(** ** A verifier as the libraries have it, and a session with it *)
Definition vx_claims : dict val :=
  [("iss", VStr "https://op.example"); ("sub", VStr "u1"); ("aud", VList [VStr "client1"]); ("nonce", VStr ex_nonce); ("exp", VInt 5000)].
(** two tokens with the same claims: one signed with RS256, one not signed; an expected
    algorithm is enforced *)
Definition vx_unpack : unpacker := fun args raw =>
  let alg := if raw =?s "unsigned" then "none" else "RS256" in
  match dget "sigalg" args with
  | Some v => if val_eqb v (VStr alg) then Ok vx_claims else Err OtherError
  | None => Ok vx_claims
  end.
Definition in_aud (v : val) (claims : dict val) : bool :=
  match dget "aud" claims with
  | Some (VList l) => existsb (val_eqb v) l
  | Some w => val_eqb v w
  | None => false
  end.
Definition ref_verify (unpack : unpacker) (now : Z) : verifier := fun name args m =>
  let m := ddel "__verified_id_token" m in
  match dget "id_token" m with
  | None => Ok m
  | Some (VStr raw) =>
      match unpack args raw with
      | Err e => Err e
      | Ok claims =>
          if negb (match dget "iss" args with Some v => match dget "iss" claims with Some w => val_eqb w v | None => false end | None => true end)
          then Err OtherError
          else if negb (match dget "client_id" args with Some v => in_aud v claims | None => true end) then Err OtherError
          else match dget "exp" claims with
               | Some (VInt e) =>
                   match dget "skew" args with
                   | Some (VInt s) => if (now - s <=? e)%Z then Ok (dset "__verified_id_token" (VDict claims) m) else Err OtherError
                   | None => if (now <=? e)%Z then Ok (dset "__verified_id_token" (VDict claims) m) else Err OtherError
                   | Some _ => Err TypeError
                   end
               | _ => Err OtherError
               end
      end
  | Some _ => Err ValueError
  end.
(** a message is a dictionary: no key twice *)
Fixpoint uniqb (m : msg) : bool :=
  match m with [] => true | (k, _) :: r => negb (mem_str k (dkeys r)) && uniqb r end.
Lemma uniqb_NoDup m : uniqb m = true -> NoDup (dkeys m).
Proof.
  induction m as [|[k v] m IH]; [constructor|]. cbn [uniqb]. intros H. apply andb_prop in H. destruct H as [H1 H2].
  constructor; [|now apply IH]. intros Hin. apply negb_true_iff in H1. apply (mem_str_In k (dkeys m)) in Hin. congruence.
Qed.
Definition ref_verifier (unpack : unpacker) (now : Z) : verifier := fun name args m =>
  if uniqb m then ref_verify unpack now name args m else Err ValueError.
Lemma ref_checks unpack now : checks_id_tokens unpack now (ref_verifier unpack now).
Proof.
  intros name args m m' H. unfold ref_verifier in H. destruct (uniqb m) eqn:Em; [|discriminate]. apply uniqb_NoDup in Em.
  unfold ref_verify in H.
  assert (ND : NoDup (dkeys (ddel "__verified_id_token" m))) by now apply NoDup_ddel.
  destruct (dget "id_token" (ddel "__verified_id_token" m)) as [[| | |raw| |]|] eqn:Er; try discriminate.
  2:{ injection H as <-. split; [exact ND|]. intros t Ht. rewrite dget_ddel_eq in Ht. discriminate. }
  rewrite dget_ddel_neq in Er by discriminate.
  destruct (unpack args raw) as [claims|] eqn:Eu; [|discriminate].
  destruct (negb (match dget "iss" args with Some v => _ | None => _ end)) eqn:E1; [discriminate|].
  destruct (negb (match dget "client_id" args with Some v => _ | None => _ end)) eqn:E2; [discriminate|].
  destruct (dget "exp" claims) as [[| |e| | |]|] eqn:E3; try discriminate.
  apply negb_false_iff in E1, E2.
  assert (G : (exists s, (now - s <= e)%Z /\ (dget "skew" args = Some (VInt s) \/ (dget "skew" args = None /\ s = 0%Z))) /\
     m' = dset "__verified_id_token" (VDict claims) (ddel "__verified_id_token" m)).
  { destruct (dget "skew" args) as [[| |s| | |]|]; try discriminate.
    - destruct (Z.leb_spec (now - s) e); [|discriminate]. injection H as <-. split; [exists s; auto|reflexivity].
    - destruct (Z.leb_spec now e); [|discriminate]. injection H as <-. split; [exists 0%Z; split; [lia|auto]|reflexivity]. }
  destruct G as [(s & G1 & G2) ->]. split; [now apply NoDup_dset|]. intros t Ht. rewrite dget_dset_eq in Ht. injection Ht as <-.
  exists raw, claims. split; [|split; [reflexivity|split; [exact Eu|split; [|split]]]].
  - exact Er.
  - intros v Hv. rewrite Hv in E1. destruct (dget "iss" claims); [|discriminate]. apply val_eqb_eq in E1. now subst.
  - intros v Hv. rewrite Hv in E2. unfold in_aud in E2. unfold meant_for. destruct (dget "aud" claims) as [[| | |x|l|]|] eqn:Ea; try discriminate.
    + apply val_eqb_eq in E2. left. congruence.
    + right. exists l. split; [reflexivity|]. apply existsb_exists in E2. destruct E2 as (y & Y1 & Y2). apply val_eqb_eq in Y2. now subst.
  - exists e, s. auto.
Qed.

(** the world of the session: the token endpoint answers with the token [raw] *)
Definition vx_answer (raw : string) : dict val :=
  [("access_token", VStr "AT1"); ("token_type", VStr "Bearer"); ("expires_in", VInt 3600); ("refresh_token", VStr "RT1");
   ("id_token", VStr raw)].
Definition vx_env (raw : string) : env :=
  mkenv 1000 ex_nonce ex_state "x2" "n2" "LsLsLsLsLsLsLsLsLsLsLsLsLsLsLsLs"
    (fun u m b h => Ok (mkresp 200 (Some "application/json") (json_dumps (VDict (vx_answer raw)))))
    (fun _ _ => Err OtherError)
    (fun name c m => ref_verifier vx_unpack 1000 name (gather_verify_arguments name c) m)
    (fun _ => Ok None) (fun _ _ _ _ => Ok "reqobj") ex_authn (fun n => 7 * n) (fun m v => (m ++ "digest")%string).
Definition vx_ctx : ctx := set_registration [("id_token_signed_response_alg", VStr "RS256")] ex_ctx.
Definition vx_client : client := mkclient vx_ctx ["authorization"; "accesstoken"; "refresh_token"; "userinfo"] [] false.
Lemma vx_verifies raw : verifies_with (vx_env raw) vx_unpack (ref_verifier vx_unpack 1000).
Proof. split; [reflexivity|]. apply ref_checks. Qed.
Definition vx_history : list call :=
  [CInit (vx_env "signed") [] None; CFinalizeAuth (vx_env "signed") "https://op.example" ex_resp; CTokens (vx_env "signed") ex_state].
(** the hypotheses of C51_stored_id_tokens_are_believable are met and there is a verified
    ID Token in the store *)
Example C51_stored_ex :
  plain_client vx_client /\ Forall call_ok vx_history /\ sdb vx_ctx = [] /\ no_overrides vx_ctx /\
  (forall o W, In o vx_history -> world o = Some W -> verifies_with W vx_unpack (ref_verifier vx_unpack 1000)) /\ rnd32 ex_state /\
  exists m, get_item (sdb (run_calls vx_client vx_history vx_ctx)) cMessage "token_response" ex_state = Ok m /\
    dget "__verified_id_token" m = Some (VDict vx_claims).
Proof.
  assert (R : rnd32 ex_state) by (split; reflexivity).
  split; [split; [split; reflexivity|reflexivity]|]. split; [repeat constructor|]. split; [reflexivity|]. split; [reflexivity|].
  split. { intros o W H E. cbn in H. intuition (subst; injection E as <-; apply vx_verifies). }
  split; [exact R|].
  apply ok_with with (f := fun m => match dget "__verified_id_token" m with Some w => val_eqb w (VDict vx_claims) | None => false end).
  - intros m. apply get_if.
  - vm_compute. reflexivity.
Qed.
(** finalize with this world gives the ID Token *)
Example C51_finalize_ex :
  let c := run_calls vx_client [CInit (vx_env "signed") [] None] vx_ctx in
  exists f, fst (finalize (vx_env "signed") (mkclient vx_ctx ["authorization"; "accesstoken"] [] false) "https://op.example" ex_resp false c) = Ok f /\
    match f with FOk _ _ _ idt _ => idt = VDict vx_claims | FError _ _ => False end.
Proof.
  apply ok_with with (f := fun f => match f with FOk _ _ _ idt _ => val_eqb idt (VDict vx_claims) | FError _ _ => false end).
  - intros [|]; [discriminate|]. apply val_eqb_eq.
  - vm_compute. reflexivity.
Qed.
(** a token that is not signed with the registered algorithm is not accepted at the token endpoint *)
Example C51_unsigned_rejected_ex :
  let c := run_calls vx_client (firstn 2 vx_history) vx_ctx in
  get_tokens (vx_env "unsigned") vx_client ex_state c = (Err OtherError, c).
Proof. vm_compute. reflexivity. Qed.

(** C51 is not true of refreshed tokens in full: the refresh service gathers the arguments
    of the base class, which do not name the registered algorithm.  The client registered
    for RS256 and the library would reject the unsigned token if told so; the refresh
    stores it as verified. *)
Theorem C51_refreshed_id_token_algorithm_refuted : exists W U V cl c st m c',
  verifies_with W U V /\ no_overrides c /\
  dget "id_token_signed_response_alg" (registration_response c) = Some (VStr "RS256") /\
  (forall args, dget "sigalg" args = Some (VStr "RS256") -> forall claims, U args "unsigned" <> Ok claims) /\
  refresh_access_token W cl st "" c = (Ok (RMsg m), c') /\
  dget "id_token" m = Some (VStr "unsigned") /\ dget "__verified_id_token" m = Some (VDict vx_claims) /\
  exists it, get_item (sdb c') cMessage "token_response" st = Ok it /\ dget "__verified_id_token" it = Some (VDict vx_claims).
Proof.
  pose (c := run_calls vx_client vx_history vx_ctx).
  assert (X : exists m, fst (refresh_access_token (vx_env "unsigned") vx_client ex_state "" c) = Ok (RMsg m) /\
     dget "id_token" m = Some (VStr "unsigned") /\ dget "__verified_id_token" m = Some (VDict vx_claims)).
  { set (r := fst _). assert (E : (match r with Ok (RMsg m) => (match dget "id_token" m with Some w => val_eqb w (VStr "unsigned") | None => false end) &&
      (match dget "__verified_id_token" m with Some w => val_eqb w (VDict vx_claims) | None => false end) | _ => false end) = true)
      by (subst r c; vm_compute; reflexivity).
    destruct r as [[m| |]|]; try discriminate. apply andb_prop in E. destruct E as [E1 E2]. exists m. split; [reflexivity|]. split; now apply get_if. }
  destruct X as (m & X1 & X2 & X3).
  exists (vx_env "unsigned"), vx_unpack, (ref_verifier vx_unpack 1000), vx_client, c, ex_state, m,
    (snd (refresh_access_token (vx_env "unsigned") vx_client ex_state "" c)).
  split; [apply vx_verifies|]. split; [subst c; vm_compute; reflexivity|]. split; [subst c; vm_compute; reflexivity|].
  split. { intros args H claims. unfold vx_unpack. rewrite H. discriminate. }
  split. { rewrite <- X1. now destruct (refresh_access_token _ _ _ _ _). }
  split; [exact X2|]. split; [exact X3|].
  apply ok_with with (f := fun m => match dget "__verified_id_token" m with Some w => val_eqb w (VDict vx_claims) | None => false end).
  - intros x. apply get_if.
  - subst c. vm_compute. reflexivity.
Qed.
Print Assumptions C51_refreshed_id_token_algorithm_refuted.
