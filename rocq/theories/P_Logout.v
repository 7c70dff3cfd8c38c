(** Proofs for T_Logout.v *)
From Verif Require Import Base BaseP Json JsonP Msg M_State S_State P_State M_Ctx M_Codec M_Authz M_ClientAuth
  M_Service M_Token M_Handler M_Verify S_Service S_Token S_Handler S_Flow S_Trace S_Verify S_Logout P_Ctx P_Authz P_Codec P_ClientAuth P_Service P_Wire P_Token
  P_Handler P_Flow P_Token2 P_Trace P_Flow2 P_Handler2 P_Handler3 P_Handler4 P_Route P_Verify P_Login.

Lemma genuine unpack verify request args c k : checks_logout_tokens unpack verify ->
  backchannel_logout (fun c req => verify (logout_verify_args c) req) request args c = Ok k ->
  exists req raw claims claim who, (if request =?s "" then msg_new cBCLogout args else msg_from_urlencoded cBCLogout request) = Ok req /\
    dget "logout_token" req = Some (VStr raw) /\ genuine_logout unpack c raw claims /\ names claims claim who /\
    get_state_by_x (sdb c) who (if claim =?s "sub" then "subject id" else "session id") = Ok k.
Proof.
  intros HV H. destruct (backchannel_spec _ _ _ _ _ H) as (req & v & claims & A1 & A2 & A3 & B).
  destruct (HV _ _ _ A2 _ A3) as (raw & cl & C1 & C2 & C3 & C4 & C5). injection C2 as <-.
  assert (G : genuine_logout unpack c raw claims).
  { split; [|split; [now apply C4|intros N; now apply C5]]. exists (logout_verify_args c). split; [exact C3|].
    unfold logout_verify_args. cbn. split; [reflexivity|]. split; [reflexivity|]. split; [intros alg ->; reflexivity|intros ->; reflexivity]. }
  destruct B as [(s & B1 & B2 & B3)|(B0 & s & B1 & B2 & B3)].
  - exists req, raw, claims, "sub", s. split; [exact A1|]. split; [exact C1|]. split; [exact G|]. split; [|exact B3]. split; [exact B1|]. split; [exact B2|now left].
  - exists req, raw, claims, "sid", s. split; [exact A1|]. split; [exact C1|]. split; [exact G|]. split; [|exact B3]. split; [exact B1|]. split; [exact B2|right].
    split; [reflexivity|]. destruct (dget "sub" claims) as [w|]; [right; exists w; auto|now left].
Qed.

Lemma who_is_told U V cl c x who k o : no_overrides c ->
  (forall W, world o = Some W -> verifies_with W (U W) (V W)) ->
  x = "sub" \/ x = "sid" -> call_op cl c o (Bind (if x =?s "sub" then "subject id" else "session id") who k) ->
  exists W, world o = Some W /\ about_session c o k /\ told (U W) cl c W k x who.
Proof.
  intros NO HV HX C.
  assert (SUB : (if x =?s "sub" then "subject id" else "session id") = "subject id" -> x = "sub") by (destruct HX as [-> | ->]; [reflexivity|discriminate]).
  assert (SID : (if x =?s "sub" then "subject id" else "session id") = "session id" -> x = "sid") by (destruct HX as [-> | ->]; [discriminate|reflexivity]).
  assert (NON : (if x =?s "sub" then "subject id" else "session id") <> "nonce") by (destruct (x =?s "sub"); discriminate).
  assert (NOL : (if x =?s "sub" then "subject id" else "session id") <> "logout state") by (destruct (x =?s "sub"); discriminate).
  generalize dependent (if x =?s "sub" then "subject id" else "session id"). intros kd C SUB SID NON NOL.
  assert (BEL : forall W name claims c0 m0 v, In name ["authorization"; "accesstoken"] -> verifies_with W (U W) (V W) -> c0 = set_db (sdb c0) c ->
     e_vrf W name c0 m0 = Ok v -> dget (verified "id_token") v = Some (VDict claims) -> forall y w, dget y claims = Some (VStr w) ->
     exists args cs, believable (U W) (e_now W) c args cs /\ with_registered_algs c args /\ dget y cs = Some (VStr w)).
  { intros W name claims c0 m0 v Hn HW Hc Hv Hd y w Hy.
    destruct (believed (U W) (V W) W name c c0 m0 v _ HW ltac:(cbn in *; tauto) NO Hc Hv Hd) as (args & cs & B1 & B2 & B3).
    injection B1 as <-. exists args, claims. split; [exact B2|]. split; [|exact Hy]. apply B3. cbn in Hn. destruct Hn as [<-|[<-|[]]]; discriminate. }
  destruct o; cbn in C.
  - destruct C as (_ & C & _); now rewrite C in NON.
  - assert (HW := HV W eq_refl).
    destruct C as [(s & Ks & [(? & ? & ? & D)|(AN & [[(? & ? & D)|(v & F & D)]|(? & ? & D)])])|(c1 & m & c2 & t & c3 & s & EC1 & (EC2 & EC3) & FA & NE & ST & Ks & GT & v & C)]; try discriminate.
    + injection D as D1 -> ->. destruct F as (m & claims & (c1 & m0 & EC & EV) & F1 & F2). rewrite (SUB D1).
      exists W. split; [reflexivity|]. split.
      * destruct AN as (c4 & m4 & c5 & A1 & A2 & A3 & A4). exists (sdb c4), m4, c5. rewrite <- A1. auto.
      * left. eapply (BEL W "accesstoken"); [cbn; tauto|exact HW|exact EC|exact EV|exact F1|exact F2].
    + assert (FR : forall claims y w, t_id t = VDict claims -> dget y claims = Some (VStr w) ->
         exists args cs, believable (U W) (e_now W) c args cs /\ with_registered_algs c args /\ dget y cs = Some (VStr w)).
      { intros claims y w Ht Hy. destruct (tokens_from _ _ _ _ _ _ _ _ GT) as [X|[X|(m0 & v0 & X1 & X2)]]; [congruence| |].
        - destruct (finalize_auth_from _ _ _ _ _ _ _ FA) as [Y|(_ & m0 & v0 & Y1 & Y2)]; [congruence|]. rewrite Y2, Ht in X.
          eapply (BEL W "authorization"); [cbn; tauto|exact HW|exact EC1|exact Y1|exact X|exact Hy].
        - rewrite Ht in X2. eapply (BEL W "accesstoken"); [cbn; tauto|exact HW|exact EC2|exact X1|exact X2|exact Hy]. }
      assert (GO : forall y, s = k -> told (U W) cl c W k y who -> y = x -> exists W0, Some W = Some W0 /\ about_session c (CFinalize W iss resp collect) k /\ told (U W0) cl c W0 k x who).
      { intros y -> HT ->. exists W. split; [reflexivity|]. split; [|exact HT].
        exists (sdb c1), m, c2. rewrite <- EC1. auto. }
      destruct C as [(claims & Ht & [(Hy & D)|(Hy & D)])|(NI & (a & r & c4 & Ha & Hu & Hv) & D)]; injection D as D1 D2 D3; subst v s.
      * apply (GO "sid"); [reflexivity| |symmetry; auto]. left. eapply FR; eauto.
      * apply (GO "sub"); [reflexivity| |symmetry; auto]. left. eapply FR; eauto.
      * apply (GO "sub"); [reflexivity| |symmetry; auto]. right. split; [reflexivity|]. destruct r as [mm| |]; [|discriminate Hv|discriminate Hv].
        exists (sdb c3), a, mm, c4. split; [|exact Hv].
        now rewrite <- EC3.
  - destruct C as (? & _ & ? & ? & ? & D). discriminate.
  - assert (HW := HV W eq_refl). destruct C as [(? & ? & D)|(v & (m & claims & (c1 & m0 & EC & EV) & F1 & F2) & D)]; [discriminate|].
    injection D as D1 -> ->. rewrite (SUB D1). exists W. split; [reflexivity|]. split; [reflexivity|].
    left. eapply (BEL W "accesstoken"); [cbn; tauto|exact HW|exact EC|exact EV|exact F1|exact F2].
  - destruct C as (? & ? & D). discriminate.
  - destruct C as (? & ? & D). discriminate.
  - destruct C as (? & D). now injection D as D _ _.
  - discriminate.
Qed.
Lemma kind_ok x : x = "sub" \/ x = "sid" -> In (if x =?s "sub" then "subject id" else "session id") kinds.
Proof. intros [-> | ->]; cbn [String.eqb Ascii.eqb Bool.eqb]; [apply in_sub|apply in_sid]. Qed.
Lemma who_is_bound U V cl os c x who k : plain_client cl -> Forall call_ok os -> sdb c = [] -> no_overrides c ->
  (forall o W, In o os -> world o = Some W -> verifies_with W (U W) (V W)) ->
  x = "sub" \/ x = "sid" ->
  get_state_by_x (sdb (run_calls cl os c)) who (if x =?s "sub" then "subject id" else "session id") = Ok k ->
  rnd32 k /\ exists o W, In o os /\ world o = Some W /\ about_session c o k /\ told (U W) cl c W k x who.
Proof.
  intros PC OK E NO HV HX G. destruct (calls_ops cl os c PC OK E) as (ops & O1 & O2 & O3). rewrite O3 in G.
  apply (bind_provenance rnd32 ops _ who k rnd32_family O1 (kind_ok x HX)) in G. split.
  { rewrite Forall_forall in O1. now destruct (O1 _ G). }
  destruct (O2 _ G) as (o & I & C).
  destruct (who_is_told U V cl c x who k o NO (fun W => HV o W I) HX C) as (W & A). exists o, W. auto.
Qed.
Lemma logout_of_whom U V LU LV cl os c request args k : plain_client cl -> Forall call_ok os -> sdb c = [] -> no_overrides c ->
  (forall o W, In o os -> world o = Some W -> verifies_with W (U W) (V W)) -> checks_logout_tokens LU LV ->
  backchannel_logout (fun c req => LV (logout_verify_args c) req) request args (run_calls cl os c) = Ok k ->
  exists req raw claims claim who,
    (if request =?s "" then msg_new cBCLogout args else msg_from_urlencoded cBCLogout request) = Ok req /\
    dget "logout_token" req = Some (VStr raw) /\ genuine_logout LU c raw claims /\ names claims claim who /\ rnd32 k /\
    exists o W, In o os /\ world o = Some W /\ about_session c o k /\ told (U W) cl c W k claim who.
Proof.
  intros PC OK E NO HV HL H. destruct (genuine _ _ _ _ _ _ HL H) as (req & raw & claims & claim & who & A1 & A2 & A3 & A4 & A5).
  assert (S : run_calls cl os c = set_db (sdb (run_calls cl os c)) c) by (apply history_keeps; auto; rewrite E; apply closed_nil).
  assert (X : claim = "sub" \/ claim = "sid") by (destruct A4 as (_ & _ & [->|[-> _]]); auto).
  destruct (who_is_bound U V cl os c claim who k PC OK E NO HV X A5) as (B1 & B2).
  exists req, raw, claims, claim, who. split; [exact A1|]. split; [exact A2|]. split; [|auto]. rewrite S in A3. exact A3.
Qed.

(** ** a session can be found *)
Lemma idx_stays ops : forall a x v k, A_idx a x v = Some k -> (forall o, In o ops -> is_remove o = false) ->
  exists k', A_idx (snd (arun a ops)) x v = Some k'.
Proof.
  induction ops as [|o ops IH]; intros a x v k H N; [cbn; eauto|]. cbn [arun].
  assert (H1 : exists k1, A_idx (snd (astep a o)) x v = Some k1).
  { pose proof (N o (or_introl eq_refl)) as No. destruct o as [rnd iss key|c m t k0|x' v' k0|k0]; cbn in *; try discriminate; eauto.
    unfold upd2. destruct (_ && _); eauto. }
  destruct (astep a o) as [y a1]. destruct H1 as [k1 H1]. cbn [snd] in H1.
  destruct (IH a1 x v k1 H1 (fun o' Ho => N o' (or_intror Ho))) as [k2 H2]. destruct (arun a1 ops). eauto.
Qed.
Definition no_clear (o : call) : Prop := match o with CClear _ => False | _ => True end.
Lemma no_clear_ops cl c o x : no_clear o -> call_op cl c o x -> is_remove x = false.
Proof.
  intros N C. destruct x; try reflexivity. exfalso. destruct o; cbn in C, N;
  unfold init_op, final_op, final_bind, refresh_op, front_op, authz_op, token_op, userinfo_op, logout_op in C; try contradiction; no_op.
Qed.
Lemma run_calls_last cl os o c : run_calls cl (os ++ [o]) c = run_call cl o (run_calls cl os c).
Proof. unfold run_calls. now rewrite fold_left_app. Qed.
Lemma bind_now x v k d d' : In x kinds -> k <> "" -> store_x2state v k x d = (Ok tt, d') -> get_state_by_x d' v x = Ok k.
Proof.
  intros Hx Nk. unfold store_x2state, get_state_by_x. rewrite (index_key_ok x v Hx).
  assert (N2 : ref_key k <> idx x v) by (apply not_eq_sym; now apply idx_ref).
  assert (G : forall w, dget (idx x v) (dset (ref_key k) w (dset (idx x v) k d)) = Some k) by (intros w; rewrite dget_dset_neq by exact N2; apply dget_dset_eq).
  destruct (dget (ref_key k) _) as [s|]; [destruct (json_loads s) as [[]|]|]; try discriminate; intros [= <-]; rewrite G; now rewrite (eqb_neq _ _ Nk).
Qed.
Lemma bind_other x v k x' v' k' d d' : In x kinds -> In x' kinds -> x <> x' -> get_state_by_x d v x = Ok k -> store_x2state v' k' x' d = (Ok tt, d') -> get_state_by_x d' v x = Ok k.
Proof.
  intros Hx Hx' Nx. unfold store_x2state, get_state_by_x. rewrite (index_key_ok x v Hx), (index_key_ok x' v' Hx').
  assert (N2 : ref_key k' <> idx x v) by (apply not_eq_sym; now apply idx_ref).
  assert (N1 : idx x' v' <> idx x v) by (intros E; apply idx_inj in E as [-> _]; auto).
  assert (G : forall w, dget (idx x v) (dset (ref_key k') w (dset (idx x' v') k' d)) = dget (idx x v) d) by (intros w; rewrite dget_dset_neq by exact N2; now apply dget_dset_neq).
  intros H. destruct (dget (ref_key k') _) as [s|]; [destruct (json_loads s) as [[]|]|]; try discriminate; intros [= <-]; rewrite G; exact H.
Qed.
Lemma session_ids_support c : session_ids c -> sid_support c = true.
Proof.
  unfold session_ids, sid_support. destruct (dget "backchannel_logout_session_supported" (provider_info c)); [auto|].
  intros (v & -> & H). exact H.
Qed.
Lemma bound_by_finalize W cl iss resp collect c info k tok idt ss c1 x who : k <> "" ->
  finalize W cl iss resp collect c = (Ok (FOk info (VStr k) tok idt ss), c1) ->
  x = "sub" \/ (x = "sid" /\ session_ids c1) -> known_as idt info x who ->
  get_state_by_x (sdb c1) who (if x =?s "sub" then "subject id" else "session id") = Ok k.
Proof.
  intros Nk H HX KA. unfold finalize in H. apply bind_ok in H. destruct H as (ar & c2 & E1 & H). destruct (is_error_message ar).
  { apply bind_ok in H. destruct H as (? & ? & _ & H). apply bind_ok in H. destruct H as (? & ? & _ & H). discriminate. }
  destruct (dget "state" ar) as [[| | |st| |]|]; try discriminate. apply bind_ok in H. destruct H as (t & c3 & E2 & H).
  apply bind_ok in H. destruct H as (inf & c4 & E3 & H). apply bind_ok in H. destruct H as ([] & c5 & E4 & H).
  injection H as -> -> _ <- _ <-. clear E1 E2 E3 c c2 c3 ar.
  assert (SB : forall v c0, bind_value "subject id" v k c0 = (Ok tt, c5) -> exists s, v = VStr s /\ store_x2state s k "subject id" (sdb c0) = (Ok tt, sdb c5) /\ c5 = set_db (sdb c5) c0).
  { intros v c0 B. unfold bind_value in B. destruct v as [| | |s| |]; try discriminate. exists s. unfold on_db in B.
    destruct (store_x2state s k "subject id" (sdb c0)) as [r d']. injection B as -> <-. auto. }
  unfold bind_subject in E4. unfold known_as in KA.
  assert (NOID : x = "sub" /\ dget "sub" info = Some (VStr who) -> (s <- lift (dict_get "sub" info) ;; bind_value "subject id" s k) c4 = (Ok tt, c5) ->
     get_state_by_x (sdb c5) who (if x =?s "sub" then "subject id" else "session id") = Ok k).
  { intros [-> Hw] B. apply bind_ok in B. destruct B as (s & c6 & B1 & B2). unfold lift, dict_get in B1. rewrite Hw in B1. injection B1 as <- <-.
    destruct (SB _ _ B2) as (s & Es & B3 & _). injection Es as <-. eapply bind_now; [apply in_sub|exact Nk|exact B3]. }
  destruct (t_id t) as [| | | | |[|kv r]]; try (now apply NOID).
  apply bind_ok in E4. destruct E4 as (b & c6 & E5 & E4). unfold asks in E5. injection E5 as <- <-.
  apply bind_ok in E4. destruct E4 as ([] & c7 & E6 & E4). apply bind_ok in E4. destruct E4 as (s & c8 & E7 & E4).
  unfold lift, dict_get in E7. destruct (dget "sub" (kv :: r)) as [sv|] eqn:Es; [|discriminate]. injection E7 as <- <-.
  destruct (SB _ _ E4) as (s & -> & B3 & B4).
  destruct HX as [->|[-> SI]].
  - rewrite Es in KA. injection KA as ->. eapply bind_now; [apply in_sub|exact Nk|exact B3].
  - cbn [String.eqb Ascii.eqb Bool.eqb]. eapply bind_other; [apply in_sid|apply in_sub|discriminate| |exact B3].
    assert (S4 : sid_support c4 = true).
    { apply session_ids_support in SI. rewrite B4 in SI. change (sid_support c7 = true) in SI.
      destruct (sid_support c4) eqn:E; [reflexivity|]. cbn in E6. injection E6 as <-. congruence. }
    rewrite S4, KA in E6. unfold bind_value, on_db in E6. destruct (store_x2state who k "session id" (sdb c4)) as [rr d'] eqn:E8.
    injection E6 as -> <-. eapply bind_now; [apply in_sid|exact Nk|exact E8].
Qed.
Lemma found_again U V cl os0 os1 c W iss resp collect info k tok idt ss c1 x who : plain_client cl -> Forall call_ok os0 -> Forall call_ok os1 -> sdb c = [] ->
  no_overrides c -> (forall o W, In o os1 -> world o = Some W -> verifies_with W (U W) (V W)) -> keeps_sessions os1 ->
  finalize W cl iss resp collect (run_calls cl os0 c) = (Ok (FOk info (VStr k) tok idt ss), c1) ->
  x = "sub" \/ (x = "sid" /\ session_ids c) -> known_as idt info x who ->
  exists k', get_state_by_x (sdb (run_calls cl os1 c1)) who (if x =?s "sub" then "subject id" else "session id") = Ok k' /\
    (k' = k \/ exists o W, In o os1 /\ world o = Some W /\ about_session c o k' /\ told (U W) cl c W k' x who).
Proof.
  intros PC O0 O1 E NO HV KS F HX KA.
  assert (HX' : x = "sub" \/ x = "sid") by tauto.
  assert (C0 : closed rnd32 (sdb c)) by (rewrite E; apply closed_nil).
  assert (OF : Forall call_ok (os0 ++ [CFinalize W iss resp collect])) by (apply Forall_app; split; [exact O0|constructor; [exact I|constructor]]).
  assert (R1 : run_calls cl (os0 ++ [CFinalize W iss resp collect]) c = c1) by (rewrite run_calls_last; cbn [run_call]; now rewrite F).
  destruct (calls_write_from c cl _ PC OF c C0 ltac:(now rewrite set_db_same)) as (A1 & opsA & A2 & A3). rewrite R1 in A1, A3.
  assert (FA : Forall (op_ok rnd32) opsA) by (eapply Forall_impl; [|exact A2]; cbn; tauto).
  assert (CL1 : closed rnd32 (sdb c1)) by (rewrite A3; apply closed_run; [apply rnd32_family|exact C0|exact FA]).
  destruct (calls_write_from c cl os1 PC O1 c1 CL1 A1) as (B1 & opsB & B2 & B3).
  assert (FB : Forall (op_ok rnd32) opsB) by (eapply Forall_impl; [|exact B2]; cbn; tauto).
  assert (Nk : k <> "").
  { destruct (finalize_state _ _ _ _ _ _ _ _ _ _ _ _ F) as (ar & c2 & k0 & t & c3 & F1 & F2 & F3 & F4 & _). injection F4 as <-.
    pose proof (finalize_auth_spec _ _ _ _ _ _ _ F1) as G. cbn in G. destruct G as [[G _]|[_ (s & G1 & G2 & _)]]; [congruence|].
    rewrite F3 in G1. injection G1 as <-. pose proof (closed_reach cl os0 c PC O0 E) as CR.
    pose proof (closed_iss rnd32 rnd32_no_dict _ _ _ CR G2) as KK. destruct rnd32_family as (X & _). now apply X. }
  assert (S1 : session_ids c -> session_ids c1) by (rewrite A1; exact (fun x => x)).
  pose proof (bound_by_finalize W cl iss resp collect _ info k tok idt ss c1 x who Nk F ltac:(tauto) KA) as G.
  rewrite E in A3. pose proof (kind_ok x HX') as KD. rewrite B3, A3, <- crun_app.
  set (kd := if x =?s "sub" then "subject id" else "session id") in *.
  assert (FAB : Forall (op_ok rnd32) (opsA ++ opsB)) by now apply Forall_app.
  destruct (run_rel rnd32 rnd32_family (opsA ++ opsB) [] ainit (rel_init rnd32) FAB) as [_ R].
  destruct (run_rel rnd32 rnd32_family opsA [] ainit (rel_init rnd32) FA) as [_ RA].
  assert (NE : forall ops s, Forall (op_ok rnd32) ops -> A_idx (snd (arun ainit ops)) kd who = Some s -> s <> "").
  { intros ops s Hops Hs. apply idx_bound in Hs. rewrite Forall_forall in Hops. apply Hops in Hs. destruct rnd32_family as [X _], Hs as [Hs _]. now apply X. }
  assert (GA : A_idx (snd (arun ainit opsA)) kd who = Some k).
  { rewrite A3 in G. rewrite (get_by_x_rel rnd32 _ _ kd who RA KD) in G by (intros s; now apply NE).
    destruct (A_idx (snd (arun ainit opsA)) kd who); [congruence|discriminate]. }
  assert (NR : forall o, In o opsB -> is_remove o = false).
  { intros y Hy. rewrite Forall_forall in B2. destruct (B2 y Hy) as (_ & o & Ho & Hc). eapply no_clear_ops; [|exact Hc].
    destruct o; try exact I. exact (KS _ Ho). }
  destruct (idx_stays opsB _ kd who k GA NR) as [k' GB]. exists k'. rewrite <- arun_app in GB. split.
  { rewrite (get_by_x_rel rnd32 _ _ kd who R KD) by (intros s; now apply NE). now rewrite GB. }
  rewrite arun_app in GB. destruct (idx_bound_from _ _ _ _ _ GB) as [HB|HB]; [right|left; congruence].
  rewrite Forall_forall in B2. destruct (B2 _ HB) as (_ & o & Ho & Hc).
  destruct (who_is_told U V cl c x who k' o NO (fun W => HV o W Ho) HX' Hc) as (W' & Z). exists o, W'. auto.
Qed.
Lemma logout_finds U V cl os0 os1 c W iss resp collect info k tok idt ss c1 claim who vrf request args req v lclaims :
  plain_client cl -> Forall call_ok os0 -> Forall call_ok os1 -> sdb c = [] ->
  no_overrides c -> (forall o W, In o os1 -> world o = Some W -> verifies_with W (U W) (V W)) -> keeps_sessions os1 ->
  finalize W cl iss resp collect (run_calls cl os0 c) = (Ok (FOk info (VStr k) tok idt ss), c1) ->
  claim = "sub" \/ (claim = "sid" /\ session_ids c) -> known_as idt info claim who ->
  (if request =?s "" then msg_new cBCLogout args else msg_from_urlencoded cBCLogout request) = Ok req -> (request = "" -> args <> []) ->
  vrf (run_calls cl os1 c1) req = Ok v -> dget "__verified_logout_token" v = Some (VDict lclaims) -> names lclaims claim who ->
  exists k', backchannel_logout vrf request args (run_calls cl os1 c1) = Ok k' /\
    (k' = k \/ exists o W, In o os1 /\ world o = Some W /\ about_session c o k' /\ told (U W) cl c W k' claim who).
Proof.
  intros PC O0 O1 E NO HV KS F HX KA R1 R2 R3 R4 (N1 & N2 & N3).
  destruct (found_again U V cl os0 os1 c W iss resp collect info k tok idt ss c1 claim who PC O0 O1 E NO HV KS F HX KA) as (k' & G & H).
  exists k'. split; [|exact H]. rewrite (bc_neither vrf request args _ req v lclaims R1 R2 R3 R4).
  destruct who as [|a w]; [easy|]. destruct N3 as [->|[-> N3]].
  - rewrite N1. exact G.
  - rewrite N1. destruct N3 as [->|(u & -> & Hu)]; [exact G|]. destruct u as [| | |[|? ?]| |]; try discriminate; rewrite ?Hu; try exact G.
Qed.
