(** Proofs for T_Verify.v *)
From Verif Require Import Base BaseP Json JsonP Msg M_State S_State P_State M_Ctx M_Codec M_Authz M_ClientAuth
  M_Service M_Token M_Handler M_Verify S_Service S_Token S_Handler S_Flow S_Trace S_Verify P_Ctx P_Authz P_Codec P_ClientAuth P_Service P_Wire P_Token
  P_Handler P_Flow P_Token2 P_Trace P_Flow2 P_Handler2 P_Handler3 P_Handler4.

(** ** the arguments *)
Definition plain_arg (k : string) : Prop := ~ In k ["sigalg"; "encalg"; "encenc"; "allow_missing_kid"].
Lemma fr_plain c kw k : plain_arg k -> dget k (with_missing_kid c (from_registration IDT2REG c kw)) = dget k kw.
Proof.
  intros H. unfold plain_arg in H. cbn [In] in H.
  assert (A : forall kw, dget k (with_missing_kid c kw) = dget k kw).
  { intros. unfold with_missing_kid. destruct (dget "missing_kid" (allow c)); [|reflexivity]. apply dget_dset_neq. intuition. }
  rewrite A. unfold from_registration, IDT2REG. cbn [fold_left fst snd].
  destruct (dget "id_token_signed_response_alg" _); destruct (dget "id_token_encrypted_response_alg" _);
    destruct (dget "id_token_encrypted_response_enc" _); rewrite ?dget_dset_neq by intuition; reflexivity.
Qed.
Lemma fr_algs c kw arg par : In (arg, par) IDT2REG -> dget "sigalg" kw = None -> dget "encalg" kw = None -> dget "encenc" kw = None ->
  dget arg (with_missing_kid c (from_registration IDT2REG c kw)) = dget par (registration_response c).
Proof.
  intros H A1 A2 A3. assert (B : arg <> "allow_missing_kid") by (cbn in H; intuition congruence).
  assert (A : forall kw, dget arg (with_missing_kid c kw) = dget arg kw).
  { intros. unfold with_missing_kid. destruct (dget "missing_kid" (allow c)); [|reflexivity]. apply dget_dset_neq. congruence. }
  rewrite A. unfold from_registration, IDT2REG in *. cbn [fold_left fst snd In] in *.
  destruct H as [H|[H|[H|[]]]]; injection H as <- <-;
  destruct (dget "id_token_signed_response_alg" _); destruct (dget "id_token_encrypted_response_alg" _);
    destruct (dget "id_token_encrypted_response_enc" _); rewrite ?dget_dset_eq, ?dget_dset_neq, ?dget_dset_eq by discriminate; try assumption; try reflexivity.
Qed.
Definition id_token_services : list string := ["authorization"; "accesstoken"; "refresh_token"].
Lemma vargs_spec name c : In name id_token_services -> no_overrides c ->
  let a := gather_verify_arguments name c in
  dget "verify" a = Some (VBool true) /\ dget "iss" a = Some (VStr (issuer c)) /\
  (client_id c <> "" -> dget "client_id" a = Some (VStr (client_id c))) /\
  (forall s, dget "skew" a = Some (VInt s) -> tolerance c s) /\
  (name <> "refresh_token" -> with_registered_algs c a).
Proof.
  intros Hn NO a. unfold no_overrides in NO.
  assert (SK : forall s, clock_skew c = VInt s -> tolerance c s).
  { unfold clock_skew, tolerance. intros s. destruct (dget "clock_skew" (config c)); intros [= ->]; [now left|right; auto]. }
  assert (P : forall k, In k ["verify"; "iss"; "client_id"; "skew"] -> plain_arg k).
  { unfold plain_arg. cbn. intuition (subst; discriminate). }
  cbn in Hn. destruct Hn as [<-|[<-|[<-|[]]]].
  - change a with (authz_verify_args c). unfold authz_verify_args, with_verify_args. rewrite NO.
    rewrite !fr_plain by (apply P; cbn; tauto). split; [destruct (_ =?s ""); reflexivity|]. split; [destruct (_ =?s ""); reflexivity|].
    split; [intros N; rewrite (eqb_neq _ _ N); reflexivity|]. split.
    + intros s H. apply SK. destruct (_ =?s ""); cbn in H; congruence.
    + intros _ arg par H. apply fr_algs; [exact H| | |]; destruct (_ =?s ""); reflexivity.
  - change a with (token_verify_args c). unfold token_verify_args, with_verify_args. rewrite NO.
    rewrite !fr_plain by (apply P; cbn; tauto). split; [reflexivity|]. split; [reflexivity|]. split; [reflexivity|]. split.
    + intros s H. apply SK. cbn in H. congruence.
    + intros _ arg par H. apply fr_algs; [exact H| | |]; reflexivity.
  - change a with (service_verify_args "refresh_token" c). unfold service_verify_args. cbn [String.eqb andb Ascii.eqb Bool.eqb].
    split; [reflexivity|]. split; [reflexivity|]. split; [reflexivity|]. split; [discriminate|]. now intros [].
Qed.
Lemma believed unpack verify W name c c1 m0 v t : verifies_with W unpack verify -> In name id_token_services -> no_overrides c ->
  c1 = set_db (sdb c1) c -> e_vrf W name c1 m0 = Ok v -> dget (verified "id_token") v = Some t ->
  exists args claims, t = VDict claims /\ believable unpack (e_now W) c args claims /\ (name <> "refresh_token" -> with_registered_algs c args).
Proof.
  intros [V1 V2] Hn NO EC H Ht. rewrite V1 in H.
  assert (EA : gather_verify_arguments name c1 = gather_verify_arguments name c) by (rewrite EC; reflexivity).
  rewrite EA in H. destruct (proj2 (V2 _ _ _ _ H) t Ht) as (raw & claims & A1 & A2 & A3 & A4 & A5 & A6).
  destruct (vargs_spec name c Hn NO) as (B1 & B2 & B3 & B4 & B5).
  exists (gather_verify_arguments name c), claims. split; [exact A2|]. split; [|exact B5].
  split; [eauto|]. split; [exact B1|]. split; [exact B2|]. split; [now apply A4|]. split; [intros N; apply A5; now apply B3|].
  destruct A6 as (e & s & C1 & C2 & C3). exists e, s. split; [exact C1|]. split; [exact C2|].
  destruct C3 as [C3|[_ C3]]; [left; auto|right; exact C3].
Qed.

(** ** stored messages *)
Lemma latest_item_stored h k t i : latest_item h k t = Some i -> exists c m, In (Store c m t k) h /\ i = msg_to_dict c m.
Proof.
  induction h as [|o h IH]; [discriminate|]. cbn [latest_item]. destruct o as [rnd iss key|c m t' k'|x v k'|k'].
  - destruct (created_key rnd key =?s k); [discriminate|]. intros H. destruct (IH H) as (a & b & A & B). exists a, b. split; [now right|exact B].
  - destruct ((k' =?s k) && (t' =?s t)) eqn:E.
    + intros [= <-]. apply andb_prop in E. destruct E as [E1 E2]. apply String.eqb_eq in E1, E2. subst. exists c, m. split; [now left|reflexivity].
    + intros H. destruct (IH H) as (a & b & A & B). exists a, b. split; [now right|exact B].
  - intros H. destruct (IH H) as (a & b & A & B). exists a, b. split; [now right|exact B].
  - destruct (k' =?s k); [discriminate|]. intros H. destruct (IH H) as (a & b & A & B). exists a, b. split; [now right|exact B].
Qed.
(** the verified ID Token that is read back is the one that was stored *)
Lemma read_back c cc m m' t : c_json c = [] -> mem_str (verified "id_token") (c_sp c) = false -> c_json cc = [] -> mem_str (verified "id_token") (c_sp cc) = false ->
  NoDup (dkeys m) -> dget (verified "id_token") (c_default cc) = None -> msg_new cc (msg_to_dict c m) = Ok m' -> dget (verified "id_token") m' = Some t ->
  dget (verified "id_token") m = Some t.
Proof.
  intros J S J' S' N D H Ht. assert (N' : NoDup (dkeys (msg_to_dict c m))) by now rewrite ser_keys.
  rewrite (msg_new_get _ _ _ N' H) in Ht. rewrite ser_get in Ht. destruct (dget (verified "id_token") m) as [w|]; [|congruence].
  unfold ser_param in Ht. rewrite J, S in Ht. cbn [mem_str existsb snd] in Ht. destruct (skipped w); [congruence|].
  rewrite shown_plain in Ht; [exact Ht| |exact S']. now rewrite J'.
Qed.
Definition reading (cc : mcls) : Prop :=
  c_json cc = [] /\ mem_str "__verified_id_token" (c_sp cc) = false /\ dget "__verified_id_token" (c_default cc) = None.

Lemma stored_believed U V cl os c k t cc m idt : plain_client cl -> Forall call_ok os -> sdb c = [] -> no_overrides c ->
  (forall o W, In o os -> world o = Some W -> verifies_with W (U W) (V W)) ->
  rnd32 k -> In t ["auth_response"; "token_response"; "refresh_token_response"] -> reading cc ->
  get_item (sdb (run_calls cl os c)) cc t k = Ok m -> dget "__verified_id_token" m = Some idt ->
  exists o W args claims, In o os /\ world o = Some W /\ idt = VDict claims /\ believable (U W) (e_now W) c args claims /\
    ((forall st scope, o <> CRefresh W st scope) -> with_registered_algs c args).
Proof.
  intros PC OK E NO HV K Ht (R1 & R2 & R3) H Hi.
  destruct (calls_ops cl os c PC OK E) as (ops & O1 & O2 & O3). rewrite O3 in H.
  assert (T : t <> "iss") by (cbn in Ht; intuition (subst; discriminate)).
  destruct (store_observations rnd32 ops rnd32_family O1) as [S _]. specialize (S k cc t K T).
  destruct (latest_item (rev ops) k t) as [j|] eqn:L; [|destruct S as [e S]; rewrite H in S; discriminate].
  destruct (latest_item_stored _ _ _ _ L) as (c0 & m0 & A & ->). apply in_rev in A. rewrite S in H.
  assert (KEY : forall name W vr, In name id_token_services -> vr = e_vrf W name -> verifies_with W (U W) (V W) -> from_vrf c vr m0 ->
     c0 = cTokenResponse \/ c0 = cAuthzResponse ->
     exists args claims, idt = VDict claims /\ believable (U W) (e_now W) c args claims /\ (name <> "refresh_token" -> with_registered_algs c args)).
  { intros name W vr Hn -> HW (v & (c1 & m1 & EC & EV) & F2 & F3) HC.
    assert (N0 : NoDup (dkeys m0)). { apply F3. destruct HW as [HW1 HW2]. rewrite HW1 in EV. exact (proj1 (HW2 _ _ _ _ EV)). }
    assert (B : dget (verified "id_token") m0 = Some idt).
    { eapply (read_back c0 cc); eauto; destruct HC; subst; reflexivity. }
    rewrite F2 in B. eapply believed; eauto. }
  destruct (O2 _ A) as (o & I & C). destruct o; cbn in C.
  - destruct C as [_ C]. cbn in Ht. exfalso. intuition (subst; discriminate).
  - assert (HW := HV _ W I eq_refl). destruct C as [(s & _ & [(_ & x & F & D)|(_ & [[(x & F & D)|(x & ? & D)]|(x & y & D)])])|(? & ? & ? & ? & ? & ? & ? & ? & ? & ? & ? & ? & ? & ? & [(? & ? & [(? & D)|(? & D)])|(? & ? & D)])]; try discriminate.
    + injection D as -> -> -> ->. destruct (KEY "authorization" W _ ltac:(cbn; tauto) eq_refl HW F ltac:(auto)) as (args & claims & G1 & G2 & G3).
      exists (CFinalize W iss resp collect), W, args, claims. split; [exact I|]. split; [reflexivity|]. split; [exact G1|]. split; [exact G2|]. intros _. apply G3. discriminate.
    + injection D as -> -> -> ->. destruct (KEY "accesstoken" W _ ltac:(cbn; tauto) eq_refl HW F ltac:(auto)) as (args & claims & G1 & G2 & G3).
      exists (CFinalize W iss resp collect), W, args, claims. split; [exact I|]. split; [reflexivity|]. split; [exact G1|]. split; [exact G2|]. intros _. apply G3. discriminate.
    + injection D as -> -> -> ->. cbn in Ht. intuition discriminate.
  - assert (HW := HV _ W I eq_refl). destruct C as (s & _ & _ & x & F & D). injection D as -> -> -> ->.
    destruct (KEY "authorization" W _ ltac:(cbn; tauto) eq_refl HW F ltac:(auto)) as (args & claims & G1 & G2 & G3).
    exists (CFinalizeAuth W iss resp), W, args, claims. split; [exact I|]. split; [reflexivity|]. split; [exact G1|]. split; [exact G2|]. intros _. apply G3. discriminate.
  - assert (HW := HV _ W I eq_refl). destruct C as [(x & F & D)|(x & ? & D)]; [|discriminate]. injection D as -> -> -> ->.
    destruct (KEY "accesstoken" W _ ltac:(cbn; tauto) eq_refl HW F ltac:(auto)) as (args & claims & G1 & G2 & G3).
    exists (CTokens W state), W, args, claims. split; [exact I|]. split; [reflexivity|]. split; [exact G1|]. split; [exact G2|]. intros _. apply G3. discriminate.
  - assert (HW := HV _ W I eq_refl). destruct C as (x & F & D). injection D as -> -> -> ->.
    destruct (KEY "refresh_token" W _ ltac:(cbn; tauto) eq_refl HW F ltac:(auto)) as (args & claims & G1 & G2 & G3).
    exists (CRefresh W state scope), W, args, claims. split; [exact I|]. split; [reflexivity|]. split; [exact G1|]. split; [exact G2|]. intros X. now destruct (X state scope).
  - destruct C as (x & y & D). injection D as -> -> -> ->. cbn in Ht. intuition discriminate.
  - destruct C as (x & D). discriminate.
  - discriminate.
Qed.

(** ** what finalize returns *)
Lemma finalize_auth_from vrf now iss resp c m c' : finalize_auth vrf now iss resp c = (Ok m, c') ->
  is_error_message m = true \/ (c' = set_db (sdb c') c /\ exists m0 v, vrf c m0 = Ok v /\ dget (verified "id_token") m = dget (verified "id_token") v).
Proof.
  unfold finalize_auth. destruct (msg_new cAuthzResponse resp) as [r0|]; [|discriminate]. unfold bind at 1.
  destruct (parse_deserialised vrf oidc_authz_post_parse r0 "" c) as [[m1|] c1] eqn:E; [|discriminate].
  pose proof (parse_deserialised_pure _ _ _ _ _ _ _ oidc_post_parse_pure E) as P. subst c1.
  destruct (is_error_message m1) eqn:Ee; [intros [= <- <-]; now left|]. intros H. right.
  assert (A : exists m0 v, vrf c m0 = Ok v /\ dget (verified "id_token") m1 = dget (verified "id_token") v).
  { unfold parse_deserialised, bind in E. destruct (is_error_message r0) eqn:Er.
    - cbn in E. destruct r0; [discriminate|]. cbn in E. injection E as <-. congruence.
    - destruct (vrf c r0) as [v|] eqn:Ev; [|discriminate]. destruct (oidc_authz_post_parse v "" c) as [[m2|] c2] eqn:Ep; [|discriminate].
      destruct m2; [discriminate|]. injection E as <- _. exists r0, v. split; [exact Ev|]. exact (proj1 (authz_post_verified _ _ _ _ _ Ep)). }
  destruct A as (m0 & v & A1 & A2). destruct (dget "state" m1) as [[| | |s| |]|]; try discriminate.
  destruct (get_iss (sdb c) s) as [i|e]; [|destruct e; discriminate]. destruct (val_eqb i (VStr iss)); [|discriminate].
  unfold authz_update_service_context, bind, on_db in H. destruct (add_expires_at now m1) as [m2|] eqn:Ea; [|discriminate].
  destruct (store_item (IMsg cAuthzResponse m2) "auth_response" s (sdb c)) as [[|] d1]; [|discriminate]. cbn in H.
  destruct (store_item (IMsg cAuthzResponse m2) "auth_response" s d1) as [[|] d2]; [|discriminate]. injection H as <- <-.
  split; [reflexivity|]. exists m0, v. split; [exact A1|]. rewrite <- A2. unfold add_expires_at in Ea.
  destruct (dget "expires_in" m1); [|injection Ea as <-; reflexivity]. destruct (to_int v0); [|discriminate]. injection Ea as <-. now rewrite dget_dset_neq by discriminate.
Qed.
Lemma endpoint_from W cl st c t c' : tokens_from_endpoint W cl st c = (Ok t, c') ->
  t_id t = VNone \/ exists m0 v, e_vrf W "accesstoken" c m0 = Ok v /\ dget (verified "id_token") v = Some (t_id t).
Proof.
  unfold tokens_from_endpoint, bind. destruct (get_tokens W cl st c) as [[r|] c1] eqn:E; [|discriminate]. unfold lift.
  destruct (dict_get "access_token" (msg_of r)) as [a|]; [|discriminate]. intros [= <- _]. cbn [t_id].
  destruct r as [m| |]; [|left; reflexivity|left; reflexivity]. cbn [msg_of].
  destruct (get_tokens_changes _ _ _ _ _ _ E) as [[_ X]|(raw & v & m0 & V1 & V2 & V3 & V4)]; [now destruct (X m)|].
  specialize (V4 m eq_refl). assert (D : dget (verified "id_token") m = dget (verified "id_token") v).
  { assert (D1 : dget (verified "id_token") raw = dget (verified "id_token") v).
    { destruct V2 as [->|[z ->]]; [reflexivity|]. now rewrite dget_dset_neq by discriminate. }
    rewrite <- D1. clear -V4. destruct (oidc_token_update (e_now W) raw st c) as [x c2] eqn:E. cbn in V4. subst x.
    unfold oidc_token_update in E. apply bind_ok in E. destruct E as ([] & c3 & _ & E).
    unfold store_token_response in E. destruct (add_expires_at (e_now W) raw) as [m2|] eqn:Ea; [|discriminate]. unfold bind, on_db in E.
    destruct (store_item _ _ _ _) as [[|] d]; [|discriminate]. injection E as <- _. unfold add_expires_at in Ea.
    destruct (dget "expires_in" raw); [|injection Ea as <-; reflexivity]. destruct (to_int v); [|discriminate]. injection Ea as <-. now rewrite dget_dset_neq by discriminate. }
  rewrite D. destruct (dget (verified "id_token") v) as [w|] eqn:Ew; [|left; reflexivity]. right. exists m0, v. auto.
Qed.
Lemma tokens_from W cl resp st collect c t c' : get_access_and_id_token W cl resp st collect c = (Ok t, c') ->
  t_id t = VNone \/ dget (verified "id_token") resp = Some (t_id t) \/
  exists m0 v, e_vrf W "accesstoken" c m0 = Ok v /\ dget (verified "id_token") v = Some (t_id t).
Proof.
  unfold get_access_and_id_token, bind, read_db, lift. destruct (get_item _ _ _ _) as [rq|]; [|discriminate].
  destruct (dget "response_type" rq) as [[| | | |rt|]|]; try discriminate.
  assert (A : forall b x, (if b : bool then dict_get (verified "id_token") resp else Ok VNone) = Ok x -> x = VNone \/ dget (verified "id_token") resp = Some x).
  { intros [] x; [|intros [= <-]; now left]. unfold dict_get. destruct (dget (verified "id_token") resp); [intros [= <-]; now right|discriminate]. }
  destruct (if one_of rt _ then dict_get (verified "id_token") resp else Ok VNone) as [i|] eqn:Ei; [|discriminate]. apply A in Ei.
  destruct (one_of rt _); [|destruct (one_of rt _)].
  - destruct (dict_get "access_token" resp) as [a|]; [|discriminate]. destruct collect.
    + intros H. apply endpoint_from in H. tauto.
    + intros [= <- _]. cbn. tauto.
  - intros H. apply endpoint_from in H. tauto.
  - intros [= <- _]. cbn. tauto.
Qed.
Lemma finalize_believed U V W cl iss resp collect c info st tok idt ss c' : no_overrides c -> verifies_with W U V ->
  finalize W cl iss resp collect c = (Ok (FOk info st tok idt ss), c') ->
  idt = VNone \/ exists args claims, idt = VDict claims /\ believable U (e_now W) c args claims /\ with_registered_algs c args.
Proof.
  intros NO HV. unfold finalize, bind at 1. destruct (finalize_auth (e_vrf W "authorization") (e_now W) iss resp c) as [[ar|] c1] eqn:E1; [|discriminate].
  apply finalize_auth_from in E1. destruct (is_error_message ar) eqn:Ee.
  { unfold bind, lift. destruct (dict_get "state" ar); [|discriminate]. destruct (dict_get "error" ar); [|discriminate]. discriminate. }
  destruct E1 as [E1|(EC & m0 & v & E1 & E2)]; [congruence|]. destruct (dget "state" ar) as [[| | |s| |]|]; try discriminate.
  unfold bind at 1. destruct (get_access_and_id_token W cl ar s collect c1) as [[t|] c2] eqn:E3; [|discriminate].
  apply tokens_from in E3. intros H. apply bind_ok in H. destruct H as (inf & c3 & _ & H). apply bind_ok in H. destruct H as ([] & c4 & _ & H).
  injection H as _ _ _ <- _ _. destruct E3 as [E3|[E3|(m1 & v1 & F1 & F2)]]; [now left| |]; right.
  - rewrite E2 in E3. destruct (believed U V W "authorization" c c m0 v _ HV ltac:(cbn; tauto) NO ltac:(now rewrite set_db_same) E1 E3) as (args & claims & A & B & D).
    exists args, claims. split; [exact A|]. split; [exact B|]. apply D. discriminate.
  - destruct (believed U V W "accesstoken" c c1 m1 v1 _ HV ltac:(cbn; tauto) NO EC F1 F2) as (args & claims & A & B & D).
    exists args, claims. split; [exact A|]. split; [exact B|]. apply D. discriminate.
Qed.
