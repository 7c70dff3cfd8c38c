(** Proofs for T_Claims.v *)
From Verif Require Import Base BaseP Json JsonP Msg M_State S_State P_State M_Ctx M_Codec M_Authz M_ClientAuth
  M_Service M_Token M_Handler M_Claims S_Service S_Token S_Handler S_Flow S_Trace S_Claims P_Ctx P_Authz P_ClientAuth P_Service P_Token
  P_Handler P_Flow P_Trace P_Flow2 P_Handler2 P_Handler4.

(** ** aggregated claims *)
Lemma dget_cons_NoDup {A} (k : string) (v : A) d n w : NoDup (dkeys ((k, v) :: d)) -> dget n ((k, v) :: d) = Some w ->
  (n = k /\ w = v) \/ (n <> k /\ dget n d = Some w).
Proof. intros N. cbn. destruct (String.eqb_spec k n) as [->|X]; [intros [= ->]; auto|right; auto]. Qed.
Lemma copy_value names src claims : forall resp r, NoDup (dkeys names) -> copy_claims names src claims resp = Ok r -> forall n,
  (dget n names = Some (VStr src) -> exists v, dget n claims = Some v /\ dget n r = Some v) /\
  (dget n names <> Some (VStr src) -> dget n r = dget n resp).
Proof.
  induction names as [|[a w] names IH]; intros resp r N H n.
  - cbn in H. injection H as ->. split; [discriminate|reflexivity].
  - assert (N' : NoDup (dkeys names)) by (now inversion N). assert (NI : ~ In a (dkeys names)) by (now inversion N).
    assert (D : forall x, dget x ((a, w) :: names) = if a =?s x then Some w else dget x names) by reflexivity.
    cbn [copy_claims] in H. rewrite (D n). destruct (String.eqb_spec a n) as [->|X].
    + assert (Z : dget n names = None) by (now apply dget_None_In).
      assert (T : copy_claims names src claims resp = Ok r -> w <> VStr src -> (Some w = Some (VStr src) -> exists v, dget n claims = Some v /\ dget n r = Some v) /\
         (Some w <> Some (VStr src) -> dget n r = dget n resp)).
      { intros G Q. split; [congruence|]. intros _. apply (IH _ _ N' G). congruence. }
      destruct w as [| | |s| |]; try (apply T; [assumption|congruence]).
      destruct (String.eqb_spec s src) as [->|S]; [|apply T; [assumption|congruence]].
      destruct (dget n claims) as [v|] eqn:Ev; [|discriminate]. split; [|congruence]. intros _. exists v. split; [reflexivity|].
      destruct (IH _ _ N' H n) as [_ G]. rewrite G by congruence. apply dget_dset_eq.
    + destruct w as [| | |s| |]; try (now apply (IH _ _ N' H)).
      destruct (s =?s src); [|now apply (IH _ _ N' H)]. destruct (dget a claims) as [v|] eqn:Ev; [|discriminate].
      destruct (IH _ _ N' H n) as [G1 G2]. split; [exact G1|]. intros Q. rewrite G2 by assumption. now rewrite dget_dset_neq.
Qed.
Definition agg_source (agg : agg_oracle) (sources : list (string * val)) (s : string) (d : dict val) : Prop :=
  exists spec j, dget s sources = Some (VDict spec) /\ dget "JWT" spec = Some (VStr j) /\ agg j = Ok (Some d).
Lemma spec_jwt spec : spec_has "JWT" spec = Ok true -> forall j, spec_get "JWT" spec = Ok j -> exists d, spec = VDict d /\ dget "JWT" d = Some j.
Proof.
  destruct spec; try discriminate. cbn. unfold dhas, dict_get. intros _ j. destruct (dget "JWT" d) as [x|] eqn:E; [intros [= <-]; eauto|discriminate].
Qed.
Lemma agg_source_tail agg s spec rest s' d : NoDup (dkeys ((s, spec) :: rest)) ->
  agg_source agg ((s, spec) :: rest) s' d -> (s' <> s /\ agg_source agg rest s' d) \/ (s' = s /\ exists sp j, spec = VDict sp /\ dget "JWT" sp = Some (VStr j) /\ agg j = Ok (Some d)).
Proof.
  intros N (sp & j & H1 & H2 & H3). destruct (dget_cons_NoDup _ _ _ _ _ N H1) as [[-> <-]|[X Y]]; [right; eauto 6|left; split; [assumption|exists sp, j; auto]].
Qed.
Lemma agg_source_cons agg s spec rest s' d : NoDup (dkeys ((s, spec) :: rest)) -> agg_source agg rest s' d -> agg_source agg ((s, spec) :: rest) s' d.
Proof.
  intros N (sp & j & H1 & H2 & H3). exists sp, j. split; [|auto]. cbn. destruct (String.eqb_spec s s') as [->|]; [|assumption].
  exfalso. inversion N. apply H4. change (In s' (dkeys rest)). destruct (in_dec string_dec s' (dkeys rest)) as [|Q]; [assumption|]. apply dget_None_In in Q. congruence.
Qed.
Lemma aggregate_values agg hdr names : NoDup (dkeys names) -> ~ In "_claim_names" (dkeys names) -> forall sources ui m,
  NoDup (dkeys sources) -> dget "_claim_names" ui = Some (VDict names) -> aggregate agg hdr sources ui = Ok m -> forall n,
  (forall s d, dget n names = Some (VStr s) -> agg_source agg sources s d -> exists v, dget n d = Some v /\ dget n m = Some v) /\
  ((forall s d, dget n names = Some (VStr s) -> ~ agg_source agg sources s d) -> dget n m = dget n ui).
Proof.
  intros NN NC. induction sources as [|[src spec] rest IH]; intros ui m N Hn H n.
  { cbn in H. injection H as ->. split; [|reflexivity]. intros s d _ (sp & j & X & _). discriminate. }
  assert (N' : NoDup (dkeys rest)) by (now inversion N).
  assert (SKIP : aggregate agg hdr rest ui = Ok m -> (forall d sp j, spec = VDict sp -> dget "JWT" sp = Some (VStr j) -> agg j <> Ok (Some d)) ->
    (forall s d, dget n names = Some (VStr s) -> agg_source agg ((src, spec) :: rest) s d -> exists v, dget n d = Some v /\ dget n m = Some v) /\
    ((forall s d, dget n names = Some (VStr s) -> ~ agg_source agg ((src, spec) :: rest) s d) -> dget n m = dget n ui)).
  { intros G NS. destruct (IH _ _ N' Hn G n) as [I1 I2]. split.
    - intros s d L A. apply (agg_source_tail _ _ _ _ _ _ N) in A. destruct A as [[_ A]|(_ & sp & j & A1 & A2 & A3)]; [eapply I1; eauto|destruct (NS _ _ _ A1 A2 A3)].
    - intros Q. apply I2. intros s d L A. apply (Q s d L). now apply agg_source_cons. }
  cbn [aggregate] in H. unfold rbind in H. destruct (spec_has "JWT" spec) as [[|]|] eqn:Eh; [| |discriminate].
  2:{ apply SKIP.
      - destruct (spec_has "endpoint" spec) as [[|]|]; [|assumption|discriminate].
        destruct hdr; [|discriminate]. destruct (spec_get "endpoint" spec); [assumption|discriminate].
      - intros d sp j -> J. cbn in Eh. unfold dhas in Eh. rewrite J in Eh. discriminate. }
  destruct (spec_get "JWT" spec) as [w|] eqn:Eg; [|discriminate]. destruct (spec_jwt _ Eh _ Eg) as (sp & -> & J).
  destruct w as [| | |j| |]; try discriminate. destruct (agg j) as [[claims|]|] eqn:Ea; [| |discriminate].
  2:{ apply SKIP; [assumption|]. intros d sp' j' [= <-] J'. rewrite J in J'. injection J' as <-. congruence. }
  rewrite Hn in H. destruct (copy_claims names src claims ui) as [ui'|] eqn:Ec; [|discriminate].
  pose proof (copy_value _ _ _ _ _ NN Ec) as CV.
  assert (Hn' : dget "_claim_names" ui' = Some (VDict names)) by (rewrite (copy_claims_frame _ _ _ _ _ _ Ec NC); assumption).
  destruct (IH _ _ N' Hn' H n) as [I1 I2].
  assert (HD : agg_source agg ((src, VDict sp) :: rest) src claims) by (exists sp, j; cbn; rewrite String.eqb_refl; auto).
  assert (NR : forall d, ~ agg_source agg rest src d).
  { intros d (sp' & j' & X & _). inversion N. apply H2. change (In src (dkeys rest)).
    destruct (in_dec string_dec src (dkeys rest)) as [|Q]; [assumption|]. apply dget_None_In in Q. congruence. }
  destruct (CV n) as [C1 C2]. split.
  - intros s d L A. apply (agg_source_tail _ _ _ _ _ _ N) in A. destruct A as [[_ A]|(-> & sp' & j' & A1 & A2 & A3)]; [eapply I1; eauto|].
    injection A1 as <-. rewrite J in A2. injection A2 as <-. rewrite Ea in A3. injection A3 as <-.
    destruct (C1 L) as (v & V1 & V2). exists v. split; [assumption|]. rewrite I2; [assumption|]. intros s' d' L' A'. rewrite L in L'. injection L' as <-. now apply NR in A'.
  - intros Q. rewrite I2; [|intros s d L A; apply (Q s d L); now apply agg_source_cons].
    apply C2. intros L. exact (Q src claims L HD).
Qed.
Lemma aggregate_no_names agg hdr : forall sources ui m, (forall names, dget "_claim_names" ui <> Some (VDict names)) -> aggregate agg hdr sources ui = Ok m -> m = ui.
Proof.
  induction sources as [|[src spec] rest IH]; intros ui m Hn H; [cbn in H; now injection H as ->|].
  cbn [aggregate] in H. unfold rbind in H. destruct (spec_has "JWT" spec) as [[|]|] eqn:Eh; [| |discriminate].
  - destruct (spec_get "JWT" spec) as [[| | |j| |]|]; try discriminate. destruct (agg j) as [[claims|]|]; [|auto|discriminate].
    destruct (dget "_claim_names" ui) as [[| | | | |names]|]; try discriminate. now destruct (Hn names).
  - destruct (spec_has "endpoint" spec) as [[|]|]; [|auto|discriminate].
    destruct hdr; [|discriminate]. destruct (spec_get "endpoint" spec); [auto|discriminate].
Qed.

Lemma aggregated_claims agg ui st c m c' : proper_claims ui -> userinfo_post_parse agg ui st c = (Ok m, c') ->
  (forall n s d, left_to ui n s -> aggregates agg ui s d -> exists v, dget n d = Some v /\ dget n m = Some v) /\
  (forall n, (forall s d, left_to ui n s -> ~ aggregates agg ui s d) -> dget n m = dget n ui) /\
  (forall cc, get_item (sdb c') cc "user_info" st = msg_new cc (msg_to_dict cMessage m)).
Proof.
  intros [PN PS] H. pose proof (userinfo_post_parse_spec _ _ _ _ _ _ H) as U. cbn in U. destruct U as (U & _).
  unfold userinfo_post_parse, bind, read_db, lift, on_db, ret in H.
  destruct (multiple_extend_request_args (sdb c) [] st ["id_token"] token_items false) as [args|]; [|discriminate].
  destruct (check_sub args ui) as [[]|]; [|discriminate].
  assert (V : (forall n s d, left_to ui n s -> aggregates agg ui s d -> exists v, dget n d = Some v /\ dget n m = Some v) /\
    (forall n, (forall s d, left_to ui n s -> ~ aggregates agg ui s d) -> dget n m = dget n ui)); [|tauto].
  match type of H with context [match ?x with Ok _ => _ | Err _ => _ end] => destruct x as [m0|] eqn:Em end; [|discriminate].
  destruct (store_item _ _ _ _) as [[[]|] d]; [|discriminate]. injection H as -> _. clear U.
  destruct (dget "_claim_sources" ui) as [[| | | | |sources]|] eqn:Es; try discriminate.
  - specialize (PS _ eq_refl). destruct (dget "_claim_names" ui) as [[| | | | |names]|] eqn:En;
      try (apply aggregate_no_names in Em; [|intros x Hx; congruence]; subst m; split; [intros n0 s0 d0 (names0 & L & _); congruence|reflexivity]).
    destruct (PN _ eq_refl) as [PN1 PN2]. pose proof (aggregate_values agg _ names PN1 PN2 _ _ _ PS En Em) as A.
    assert (LE : forall n s, left_to ui n s <-> dget n names = Some (VStr s)).
    { intros n s. unfold left_to. split; [intros (x & X & Y); congruence|eauto]. }
    assert (AE : forall s d, aggregates agg ui s d <-> agg_source agg sources s d).
    { intros s d0. unfold aggregates, agg_source, described. split.
      - intros (sp & j & (x & X & Y) & Z). exists sp, j. rewrite Es in X. injection X as <-. tauto.
      - intros (sp & j & X & Z). exists sp, j. split; [eauto|assumption]. }
    split.
    + intros n s d0 L Q. apply LE in L. apply AE in Q. destruct (A n) as [A1 _]. eauto.
    + intros n Q. destruct (A n) as [_ A2]. apply A2. intros s d0 L X. apply (Q s d0); [now apply LE|now apply AE].
  - injection Em as ->. split; [|reflexivity]. intros n s d0 _ (sp & j & (x & X & _) & _). congruence.
Qed.
Lemma user_info_claims W cl st tok c m c' : closed rnd32 (sdb c) -> get_user_info W cl st tok c = (Ok (RMsg m), c') ->
  exists m0 ui, is_error_message m0 = false /\ e_vrf W "userinfo" c m0 = Ok ui /\ (proper_claims ui ->
    (forall n s d, left_to ui n s -> aggregates (e_agg W) ui s d -> exists v, dget n d = Some v /\ dget n m = Some v) /\
    (forall n, (forall s d, left_to ui n s -> ~ aggregates (e_agg W) ui s d) -> dget n m = dget n ui) /\
    (forall cc, get_item (sdb c') cc "user_info" st = msg_new cc (msg_to_dict cMessage m))).
Proof.
  intros CL H. destruct (user_info_changes _ _ _ _ _ _ _ CL H) as [[_ G]|(m0 & v & m1 & G1 & G2 & G3 & [G4|[e G4]])]; [now destruct (G m)| |discriminate].
  injection G4 as ->. exists m0, v. split; [assumption|]. split; [assumption|]. intros PC. eapply aggregated_claims; eauto.
Qed.

(** ** distributed claims *)
Lemma take_spec src d : forall names ui o ui', NoDup (dkeys names) -> take_claims src d names ui = (o, ui') ->
  (forall n, dget n names <> Some (VStr src) -> dget n ui' = dget n ui) /\
  (forall n, dget n ui' = dget n ui \/ (dget n names = Some (VStr src) /\ exists v, dget n d = Some v /\ dget n ui' = Some v)) /\
  (o = Done /\ (forall n, dget n names = Some (VStr src) -> exists v, dget n d = Some v /\ dget n ui' = Some v) \/
   exists n, o = Raised (KeyError n) /\ dget n names = Some (VStr src) /\ dget n d = None).
Proof.
  induction names as [|[a w] names IH]; intros ui o ui' N H.
  { cbn in H. injection H as <- <-. split; [auto|]. split; [auto|]. left. split; [reflexivity|discriminate]. }
  assert (N' : NoDup (dkeys names)) by (now inversion N). assert (NI : ~ In a (dkeys names)) by (now inversion N).
  assert (D : forall x, dget x ((a, w) :: names) = if a =?s x then Some w else dget x names) by reflexivity.
  assert (Z : dget a names = None) by (now apply dget_None_In).
  cbn [take_claims] in H. destruct (val_eqb w (VStr src)) eqn:Ew.
  - apply val_eqb_eq in Ew. subst w. destruct (dget a d) as [x|] eqn:Ex.
    + destruct (IH _ _ _ N' H) as (I1 & I2 & I3).
      assert (A : dget a ui' = Some x) by (rewrite I1 by congruence; apply dget_dset_eq).
      split; [|split].
      * intros n. rewrite D. destruct (String.eqb_spec a n) as [->|X]; [congruence|]. intros Q. rewrite (I1 _ Q). now rewrite dget_dset_neq.
      * intros n. rewrite D. destruct (String.eqb_spec a n) as [->|X]; [right; eauto|]. destruct (I2 n) as [Q|Q]; [left|now right].
        rewrite Q. now rewrite dget_dset_neq.
      * destruct I3 as [[I3 I4]|(n & I3 & I4 & I5)].
        -- left. split; [assumption|]. intros n. rewrite D. destruct (String.eqb_spec a n) as [->|X]; [eauto|auto].
        -- right. exists n. rewrite D. destruct (String.eqb_spec a n) as [->|X]; [congruence|auto].
    + injection H as <- <-. split; [auto|]. split; [auto|]. right. exists a. rewrite D, String.eqb_refl. auto.
  - assert (W : w <> VStr src) by (intros E; apply val_eqb_eq in E; congruence).
    destruct (IH _ _ _ N' H) as (I1 & I2 & I3). split; [|split].
    + intros n. rewrite D. destruct (String.eqb_spec a n) as [->|X]; [|apply I1]. intros _. apply I1. congruence.
    + intros n. rewrite D. destruct (String.eqb_spec a n) as [->|X]; [left; apply I1; congruence|apply I2].
    + destruct I3 as [[I3 I4]|(n & I3 & I4 & I5)].
      * left. split; [assumption|]. intros n. rewrite D. destruct (String.eqb_spec a n) as [->|X]; [congruence|auto].
      * right. exists n. rewrite D. destruct (String.eqb_spec a n) as [->|X]; [congruence|auto].
Qed.
Lemma headers_wire hu c cb d ep h : source_headers hu c cb d ep = Ok h -> source_wire cb d ep h.
Proof.
  unfold source_headers, source_wire.
  assert (B : forall t, (if hu then let! (ha, _) := bearer_header "userinfo" c [("access_token", t)] None [] in Ok (match ha with Some h => h | None => [] end) else Err AttributeError) = Ok h ->
    exists tok, t = VStr tok /\ h = [("Authorization", ("Bearer " ++ tok)%string)]).
  { intros t. destruct hu; [|discriminate]. unfold bearer_header, find_token. cbn. destruct (truthy t); [|discriminate].
    destruct t; try discriminate. cbn. intros [= <-]. eauto. }
  destruct (dget "access_token" d) as [t|]; [apply B|]. destruct cb as [f|]; [|intros [= <-]; reflexivity].
  unfold rbind at 1. destruct (f ep) as [t|]; [|discriminate]. intros H. apply B in H. destruct H as (tok & -> & ->). eauto.
Qed.
Lemma wire_det cb d ep h h' : source_wire cb d ep h -> source_wire cb d ep h' -> h = h'.
Proof.
  unfold source_wire. destruct (dget "access_token" d) as [t|].
  - intros (x & -> & ->) (y & [= <-] & ->). reflexivity.
  - destruct cb as [f|]; [|congruence]. intros (x & E & ->) (y & E' & ->). rewrite E in E'. now injection E' as <-.
Qed.
Lemma take_not_fetch src r ui o ui' : take_answer src r ui = (o, ui') -> h_status r = 200%Z -> forall z, o <> Fetch_failed z.
Proof.
  unfold take_answer. intros H E. rewrite E in H. cbn [Z.eqb Pos.eqb] in H. clear E. destruct (json_loads (h_text r)) as [v|]; [|injection H as <- _; discriminate].
  destruct (dget "_claim_names" ui) as [[| | | | |names]|]; try (injection H as <- _; discriminate).
  destruct v as [| | | | |d]; try (injection H as <- _; discriminate).
  revert ui H. induction names as [|[a w] names IH]; intros ui H; cbn in H; [injection H as <- _; discriminate|].
  destruct (val_eqb w (VStr src)); [|eauto]. destruct (dget a d); [eauto|injection H as <- _; discriminate].
Qed.
Lemma fetch_log http hu c cb : forall sources ui log o ui', fetch_from http hu c cb sources ui = (log, (o, ui')) ->
  Forall2 (asks cb) log (firstn (length log) (askable sources)) /\
  (o = Done -> length log = length (askable sources)) /\
  (forall r resp, In r log -> http (fst r) "GET" None (snd r) = Ok resp -> h_status resp <> 200%Z -> o = Fetch_failed (h_status resp)) /\
  (forall z, o = Fetch_failed z -> exists l r resp, log = l ++ [r] /\ http (fst r) "GET" None (snd r) = Ok resp /\ h_status resp = z /\ z <> 200%Z) /\
  (forall r e, In r log -> http (fst r) "GET" None (snd r) = Err e -> o = Raised e).
Proof.
  induction sources as [|[src spec] rest IH]; intros ui log o ui' H.
  { cbn in H. injection H as <- <- <-. repeat split; auto; try (constructor); try discriminate; intros; contradiction. }
  assert (NONE : forall e, ([], (Raised e, ui)) = (log, (o, ui')) ->
    Forall2 (asks cb) log (firstn (length log) (askable ((src, spec) :: rest))) /\
    (o = Done -> length log = length (askable ((src, spec) :: rest))) /\
    (forall r resp, In r log -> http (fst r) "GET" None (snd r) = Ok resp -> h_status resp <> 200%Z -> o = Fetch_failed (h_status resp)) /\
    (forall z, o = Fetch_failed z -> exists l r resp, log = l ++ [r] /\ http (fst r) "GET" None (snd r) = Ok resp /\ h_status resp = z /\ z <> 200%Z) /\
    (forall r e, In r log -> http (fst r) "GET" None (snd r) = Err e -> o = Raised e)).
  { intros e [= <- <- <-]. split; [constructor|]. repeat split; try discriminate; intros; contradiction. }
  cbn [fetch_from] in H. destruct (spec_has "endpoint" spec) as [[|]|e] eqn:Eh; [| |now apply (NONE e)].
  2:{ assert (A : askable ((src, spec) :: rest) = askable rest).
      { cbn [askable]. destruct spec as [| | | | |d]; try reflexivity. cbn in Eh. unfold dhas in Eh. destruct (dget "endpoint" d); [discriminate|reflexivity]. }
      rewrite A. eapply IH; eauto. }
  destruct spec as [| | | | |d]; try (now apply (NONE TypeError)).
  destruct (dget "endpoint" d) as [[| | |ep| |]|] eqn:Ee; try (now apply (NONE OtherError)).
  destruct (source_headers hu c cb d ep) as [h|e] eqn:Es; [|now apply (NONE e)]. apply headers_wire in Es.
  assert (A : askable ((src, VDict d) :: rest) = (src, d, ep) :: askable rest) by (cbn [askable]; now rewrite Ee). rewrite A. clear A NONE.
  assert (AS : asks cb (ep, h) (src, d, ep)) by (split; [reflexivity|exact Es]).
  destruct (http ep "GET" None h) as [resp|e] eqn:Eq.
  2:{ injection H as <- <- <-. cbn [length firstn]. split; [constructor; [exact AS|constructor]|]. split; [discriminate|].
      split; [|split; [discriminate|]].
      - intros r p [<-|[]] X. cbn [fst snd] in X. congruence.
      - intros r e' [<-|[]] X. cbn [fst snd] in X. congruence. }
  destruct (take_answer src resp ui) as [o1 ui1] eqn:Et.
  assert (STOP : forall bad, bad <> Done -> o1 = bad -> ([(ep, h)], (bad, ui1)) = (log, (o, ui')) ->
    Forall2 (asks cb) log (firstn (length log) ((src, d, ep) :: askable rest)) /\
    (o = Done -> length log = length ((src, d, ep) :: askable rest)) /\
    (forall r resp, In r log -> http (fst r) "GET" None (snd r) = Ok resp -> h_status resp <> 200%Z -> o = Fetch_failed (h_status resp)) /\
    (forall z, o = Fetch_failed z -> exists l r resp, log = l ++ [r] /\ http (fst r) "GET" None (snd r) = Ok resp /\ h_status resp = z /\ z <> 200%Z) /\
    (forall r e, In r log -> http (fst r) "GET" None (snd r) = Err e -> o = Raised e)).
  { intros bad NB OB [= <- <- <-]. split; [constructor; [exact AS|constructor]|]. split; [congruence|]. split; [|split].
    - intros r p [<-|[]] X Y. cbn [fst snd] in X. rewrite Eq in X. injection X as <-. unfold take_answer in Et.
      apply Z.eqb_neq in Y. rewrite Y in Et. injection Et as E _. congruence.
    - intros z Bz. exists [], (ep, h), resp. split; [reflexivity|]. split; [exact Eq|].
      destruct (Z.eqb_spec (h_status resp) 200) as [E2|E2]; [exfalso; now apply (take_not_fetch _ _ _ _ _ Et E2 z); congruence|].
      unfold take_answer in Et. apply Z.eqb_neq in E2. rewrite E2 in Et. injection Et as E3 _. apply Z.eqb_neq in E2. split; congruence.
    - intros r e [<-|[]] X. cbn [fst snd] in X. congruence. }
  destruct o1 as [|z|e].
  - destruct (fetch_from http hu c cb rest ui1) as [log1 [o2 ui2]] eqn:Ef. injection H as <- <- <-.
    destruct (IH _ _ _ _ Ef) as (I1 & I2 & I3 & I4 & I5). cbn [length firstn].
    split; [constructor; [exact AS|exact I1]|]. split; [intros X; now rewrite I2|]. split; [|split].
    + intros r p [<-|X] Y Z; [|eauto]. cbn [fst snd] in Y. rewrite Eq in Y. injection Y as <-. exfalso.
      unfold take_answer in Et. apply Z.eqb_neq in Z. rewrite Z in Et. discriminate.
    + intros z X. destruct (I4 _ X) as (l & r & p & -> & Y). exists ((ep, h) :: l), r, p. split; [reflexivity|exact Y].
    + intros r e [<-|X] Y; [|eauto]. cbn [fst snd] in Y. congruence.
  - apply (STOP (Fetch_failed z)); [discriminate|reflexivity|exact H].
  - apply (STOP (Raised e)); [discriminate|reflexivity|exact H].
Qed.
Definition answer_of (http : http_client) (cb : option (string -> res val)) (sources : list (string * val)) (s : string) (d : dict val) : Prop :=
  exists spec ep h r, dget s sources = Some (VDict spec) /\ dget "endpoint" spec = Some (VStr ep) /\ source_wire cb spec ep h /\
    http ep "GET" None h = Ok r /\ h_status r = 200%Z /\ json_loads (h_text r) = Some (VDict d).
Lemma answer_cons http cb s spec rest s' d : NoDup (dkeys ((s, spec) :: rest)) -> answer_of http cb rest s' d -> s' <> s /\ answer_of http cb ((s, spec) :: rest) s' d.
Proof.
  intros N (sp & ep & h & r & H1 & H). assert (X : s' <> s).
  { intros ->. inversion N. apply H3. change (In s (dkeys rest)). destruct (in_dec string_dec s (dkeys rest)) as [|Q]; [assumption|]. apply dget_None_In in Q. congruence. }
  split; [assumption|]. exists sp, ep, h, r. split; [|assumption]. cbn. destruct (String.eqb_spec s s'); [congruence|assumption].
Qed.
Lemma answer_tail http cb s spec rest s' d : answer_of http cb ((s, spec) :: rest) s' d -> s' <> s -> answer_of http cb rest s' d.
Proof.
  intros (sp & ep & h & r & H1 & H) X. exists sp, ep, h, r. split; [|assumption]. cbn in H1. destruct (String.eqb_spec s s'); [congruence|assumption].
Qed.
Lemma fetch_values http hu c cb names : NoDup (dkeys names) -> ~ In "_claim_names" (dkeys names) -> forall sources ui log o ui',
  NoDup (dkeys sources) -> dget "_claim_names" ui = Some (VDict names) -> fetch_from http hu c cb sources ui = (log, (o, ui')) -> forall n,
  (dget n ui' = dget n ui \/ exists s d v, dget n names = Some (VStr s) /\ answer_of http cb sources s d /\ dget n d = Some v /\ dget n ui' = Some v) /\
  (o = Done -> forall s d, dget n names = Some (VStr s) -> answer_of http cb sources s d -> exists v, dget n d = Some v /\ dget n ui' = Some v).
Proof.
  intros NN NC. induction sources as [|[src spec] rest IH]; intros ui log o ui' N Hn H n.
  { cbn in H. injection H as <- <- <-. split; [now left|]. intros _ s d _ (? & ? & ? & ? & X & _). discriminate. }
  assert (N' : NoDup (dkeys rest)) by (now inversion N).
  assert (NONE : forall bad, bad <> Done -> (bad, ui) = (o, ui') ->
    (dget n ui' = dget n ui \/ exists s d v, dget n names = Some (VStr s) /\ answer_of http cb ((src, spec) :: rest) s d /\ dget n d = Some v /\ dget n ui' = Some v) /\
    (o = Done -> forall s d, dget n names = Some (VStr s) -> answer_of http cb ((src, spec) :: rest) s d -> exists v, dget n d = Some v /\ dget n ui' = Some v)).
  { intros bad X [= <- <-]. split; [now left|congruence]. }
  cbn [fetch_from] in H. destruct (spec_has "endpoint" spec) as [[|]|e] eqn:Eh; [| |apply (NONE (Raised e)); [discriminate|now injection H as _ <- <-]].
  2:{ destruct (IH _ _ _ _ N' Hn H n) as [I1 I2]. split.
      - destruct I1 as [I1|(s & d & v & I1 & I3 & I4)]; [now left|right]. exists s, d, v. split; [assumption|]. split; [|assumption]. now apply answer_cons.
      - intros D s d L A. apply (I2 D s d L). apply (answer_tail _ _ src spec); [assumption|]. intros ->. destruct A as (sp & ep & h & r & A1 & A2 & _).
        cbn in A1. rewrite String.eqb_refl in A1. injection A1 as ->. cbn in Eh. unfold dhas in Eh. rewrite A2 in Eh. discriminate. }
  destruct spec as [| | | | |sp]; try (apply (NONE (Raised TypeError)); [discriminate|now injection H as _ <- <-]).
  destruct (dget "endpoint" sp) as [[| | |ep| |]|] eqn:Ee; try (apply (NONE (Raised OtherError)); [discriminate|now injection H as _ <- <-]).
  destruct (source_headers hu c cb sp ep) as [h|e] eqn:Es; [|apply (NONE (Raised e)); [discriminate|now injection H as _ <- <-]]. apply headers_wire in Es.
  destruct (http ep "GET" None h) as [resp|e] eqn:Eq; [|apply (NONE (Raised e)); [discriminate|now injection H as _ <- <-]].
  destruct (take_answer src resp ui) as [o1 ui1] eqn:Et. unfold take_answer in Et.
  destruct (Z.eqb_spec (h_status resp) 200) as [E2|E2];
    [|injection Et as <- <-; apply (NONE (Fetch_failed (h_status resp))); [discriminate|now injection H as _ <- <-]].
  destruct (json_loads (h_text resp)) as [v|] eqn:Ej; [|injection Et as <- <-; apply (NONE (Raised JSONDecodeError)); [discriminate|now injection H as _ <- <-]].
  rewrite Hn in Et. destruct v as [| | | | |d]; try (injection Et as <- <-; apply (NONE (Raised AttributeError)); [discriminate|now injection H as _ <- <-]).
  destruct (take_spec _ _ _ _ _ _ NN Et) as (T1 & T2 & T3).
  assert (AN : answer_of http cb ((src, VDict sp) :: rest) src d).
  { exists sp, ep, h, resp. cbn. rewrite String.eqb_refl. auto 10. }
  assert (FIRST : forall bad, bad <> Done -> (bad, ui1) = (o, ui') ->
    (dget n ui' = dget n ui \/ exists s d v, dget n names = Some (VStr s) /\ answer_of http cb ((src, VDict sp) :: rest) s d /\ dget n d = Some v /\ dget n ui' = Some v) /\
    (o = Done -> forall s d, dget n names = Some (VStr s) -> answer_of http cb ((src, VDict sp) :: rest) s d -> exists v, dget n d = Some v /\ dget n ui' = Some v)).
  { intros bad X [= <- <-]. split; [|congruence]. destruct (T2 n) as [Q|(Q1 & v & Q2 & Q3)]; [now left|right; exists src, d, v; auto]. }
  destruct o1 as [|z|e]; [|apply (FIRST (Fetch_failed z)); [discriminate|now injection H as _ <- <-]|apply (FIRST (Raised e)); [discriminate|now injection H as _ <- <-]].
  destruct (fetch_from http hu c cb rest ui1) as [log1 [o2 ui2]] eqn:Ef. injection H as _ -> ->.
  assert (Hn1 : dget "_claim_names" ui1 = Some (VDict names)).
  { rewrite T1; [assumption|]. intros X. apply NC. destruct (in_dec string_dec "_claim_names" (dkeys names)) as [|Q]; [assumption|]. apply dget_None_In in Q. congruence. }
  destruct (IH _ _ _ _ N' Hn1 Ef n) as [I1 I2]. destruct T3 as [[_ T3]|(x & X & _)]; [|discriminate].
  assert (STAY : dget n names = Some (VStr src) -> dget n ui' = dget n ui1).
  { intros L. destruct I1 as [I1|(s & d' & v & I1 & I3 & I4)]; [assumption|]. exfalso. rewrite L in I1. injection I1 as <-.
    apply (answer_cons _ _ src (VDict sp)) in I3; [|assumption]. tauto. }
  split.
  - destruct I1 as [I1|(s & d' & v & I1 & I3 & I4)].
    + rewrite I1. destruct (T2 n) as [Q|(Q1 & v & Q2 & Q3)]; [left; assumption|right; exists src, d, v; auto].
    + right. exists s, d', v. split; [assumption|]. split; [now apply answer_cons|assumption].
  - intros D s d' L A. destruct (String.eqb_spec s src) as [->|X].
    + assert (d' = d) as ->.
      { destruct A as (sp' & ep' & h' & r' & A1 & A2 & A3 & A4 & A5 & A6). cbn in A1. rewrite String.eqb_refl in A1. injection A1 as <-.
        rewrite Ee in A2. injection A2 as <-. rewrite (wire_det _ _ _ _ _ A3 Es) in A4. rewrite Eq in A4. injection A4 as <-. congruence. }
      destruct (T3 _ L) as (v & V1 & V2). exists v. split; [assumption|]. rewrite STAY; assumption.
    + apply (I2 D s d' L). eapply answer_tail; eauto.
Qed.
Lemma fetch_no_names http hu c cb : forall sources ui log o ui', (forall names, dget "_claim_names" ui <> Some (VDict names)) ->
  fetch_from http hu c cb sources ui = (log, (o, ui')) -> ui' = ui.
Proof.
  induction sources as [|[src spec] rest IH]; intros ui log o ui' Hn H; [cbn in H; now injection H as _ _ <-|].
  cbn [fetch_from] in H. destruct (spec_has "endpoint" spec) as [[|]|e]; [|eauto|now injection H as _ _ <-].
  destruct spec as [| | | | |sp]; try (now injection H as _ _ <-).
  destruct (dget "endpoint" sp) as [[| | |ep| |]|]; try (now injection H as _ _ <-).
  destruct (source_headers hu c cb sp ep) as [h|e]; [|now injection H as _ _ <-].
  destruct (http ep "GET" None h) as [resp|e]; [|now injection H as _ _ <-].
  destruct (take_answer src resp ui) as [o1 ui1] eqn:Et. unfold take_answer in Et.
  assert (X : ui1 = ui).
  { destruct (h_status resp =? 200)%Z; [|now injection Et as _ <-]. destruct (json_loads (h_text resp)); [|now injection Et as _ <-].
    destruct (dget "_claim_names" ui) as [[| | | | |names]|]; try (now injection Et as _ <-). now destruct (Hn names). }
  subst ui1. destruct o1; [|now injection H as _ _ <-|now injection H as _ _ <-].
  destruct (fetch_from http hu c cb rest ui) as [log1 [o2 ui2]] eqn:Ef. injection H as _ _ ->. eauto.
Qed.
Lemma distributed_claims http hu c cb ui log o ui' : proper_claims ui -> fetch_distributed_claims http hu c cb ui = (log, (o, ui')) -> forall n,
  (dget n ui' = dget n ui \/ exists s d v, left_to ui n s /\ answers_with http cb ui s d /\ dget n d = Some v /\ dget n ui' = Some v) /\
  (o = Done -> forall s d, left_to ui n s -> answers_with http cb ui s d -> exists v, dget n d = Some v /\ dget n ui' = Some v).
Proof.
  intros [PN PS] H n. unfold fetch_distributed_claims in H.
  assert (SAME : ui' = ui -> (forall s d, left_to ui n s -> ~ answers_with http cb ui s d) ->
   (dget n ui' = dget n ui \/ exists s d v, left_to ui n s /\ answers_with http cb ui s d /\ dget n d = Some v /\ dget n ui' = Some v) /\
   (o = Done -> forall s d, left_to ui n s -> answers_with http cb ui s d -> exists v, dget n d = Some v /\ dget n ui' = Some v)).
  { intros -> X. split; [now left|]. intros _ s d L A. now destruct (X s d L). }
  destruct (dget "_claim_sources" ui) as [w|] eqn:Es.
  2:{ apply SAME; [now injection H as _ _ <-|]. intros s d _ (sp & ep & h & r & (x & X & _) & _). congruence. }
  destruct w as [| | | | |sources]; try (apply SAME; [now injection H as _ _ <-|]; intros s0 d0 _ (sp & ep & h & r & (x & X & _) & _); congruence).
  assert (NM : (forall names, dget "_claim_names" ui <> Some (VDict names)) ->
   (dget n ui' = dget n ui \/ exists s d v, left_to ui n s /\ answers_with http cb ui s d /\ dget n d = Some v /\ dget n ui' = Some v) /\
   (o = Done -> forall s d, left_to ui n s -> answers_with http cb ui s d -> exists v, dget n d = Some v /\ dget n ui' = Some v)).
  { intros X. apply SAME; [eapply fetch_no_names; eauto|]. intros s d (x & Y & _). now apply X in Y. }
  destruct (dget "_claim_names" ui) as [[| | | | |names]|] eqn:En; try (apply NM; intros; congruence).
  destruct (PN _ eq_refl) as [PN1 PN2]. specialize (PS _ eq_refl).
  destruct (fetch_values http hu c cb names PN1 PN2 _ _ _ _ _ PS En H n) as [F1 F2].
  assert (AE : forall s d, answers_with http cb ui s d <-> answer_of http cb sources s d).
  { intros s d. unfold answers_with, answer_of, described. split.
    - intros (sp & ep & h & r & (x & X & Y) & Z). rewrite Es in X. injection X as <-. exists sp, ep, h, r. tauto.
    - intros (sp & ep & h & r & Y & Z). exists sp, ep, h, r. split; [eauto|assumption]. }
  split.
  - destruct F1 as [F1|(s & d & v & F1 & F3 & F4)]; [now left|right]. exists s, d, v. split; [red; eauto|]. split; [now apply AE|assumption].
  - intros D s d (x & X & Y) A. rewrite En in X. injection X as <-. apply (F2 D s d Y). now apply AE.
Qed.
Lemma distributed_requests http hu c cb ui log o ui' : fetch_distributed_claims http hu c cb ui = (log, (o, ui')) ->
  Forall2 (asks cb) log (firstn (length log) (askable (sources_of ui))) /\
  (o = Done -> length log = length (askable (sources_of ui))) /\
  (forall r resp, In r log -> http (fst r) "GET" None (snd r) = Ok resp -> h_status resp <> 200%Z -> o = Fetch_failed (h_status resp)) /\
  (forall z, o = Fetch_failed z -> exists l r resp, log = l ++ [r] /\ http (fst r) "GET" None (snd r) = Ok resp /\ h_status resp = z /\ z <> 200%Z) /\
  (forall r e, In r log -> http (fst r) "GET" None (snd r) = Err e -> o = Raised e).
Proof.
  unfold fetch_distributed_claims, sources_of. destruct (dget "_claim_sources" ui) as [[| | | | |sources]|]; [..|apply fetch_log|];
  intros [= <- <- <-]; (split; [constructor|]); repeat split; try discriminate; intros; contradiction.
Qed.
