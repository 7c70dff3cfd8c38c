(** Proofs for T_Route.v *)
From Verif Require Import Base BaseP Json JsonP Msg M_State S_State P_State M_Ctx M_Codec M_Authz M_ClientAuth
  M_Service M_Token M_Handler S_Service S_Token S_Handler S_Flow S_Trace S_Route P_Ctx P_Authz P_Codec P_ClientAuth P_Service P_Wire P_Token
  P_Handler P_Flow P_Token2 P_Trace P_Flow2 P_Handler2.

Definition at_client (i : string) (o : call) (h : handler) : handler :=
  match dget i h with
  | None => h
  | Some cl => dset i (set_ctx (run_call cl o (cl_ctx cl)) cl) h
  end.
(** what a handler call does: nothing, or one call on one client *)
Definition begins (o : hcall) (i : string) (c : call) : Prop :=
  match c with CInit W reqs beh => o = HInit W i reqs beh | _ => True end.
Definition clears (o : hcall) (c : call) : Prop := match c with CClear k => o = HClear k | _ => True end.
Lemma on_client_at {A} i (f : client -> M A) h o : (forall cl c, snd (f cl c) = run_call cl o c) -> snd (on_client i f h) = at_client i o h.
Proof.
  intros H. unfold on_client, at_client. destruct (dget i h) as [cl|]; [|reflexivity]. specialize (H cl (cl_ctx cl)).
  destruct (f cl (cl_ctx cl)) as [r c]. cbn in *. now rewrite H.
Qed.
Lemma hcall_at h o : hcall_ok o -> run_hcall h o = h \/
  exists i c, run_hcall h o = at_client i c h /\ call_ok c /\ begins o i c /\ clears o c.
Proof.
  intros OK.
  assert (SES : forall A st (f : client -> M A) c, (forall cl x, snd (f cl x) = run_call cl c x) -> call_ok c -> (forall i, begins o i c) -> clears o c ->
    run_hcall h o = snd (on_session st f h) -> run_hcall h o = h \/ exists i c, run_hcall h o = at_client i c h /\ call_ok c /\ begins o i c /\ clears o c).
  { intros A st f c H1 H2 H3 H4 E. unfold on_session in E. destruct (client_of_session h st) as [i|]; [|left; exact E].
    right. exists i, c. rewrite (on_client_at _ _ _ c H1) in E. auto. }
  destruct o; cbn [hcall_ok] in OK.
  - right. exists iss, (CInit W reqs beh). split; [now apply on_client_at|]. cbn. auto.
  - right. exists iss, (CFinalize W iss resp collect). split; [now apply on_client_at|]. cbn; auto.
  - right. exists iss, (CFinalizeAuth W iss resp). split; [now apply on_client_at|]. cbn; auto.
  - eapply SES with (c := CTokens W state); cbn; auto; reflexivity.
  - eapply SES with (c := CRefresh W state scope); cbn; auto; reflexivity.
  - eapply SES with (c := CUserInfo W state token); cbn; auto; reflexivity.
  - eapply SES with (c := CLogout W state uri); cbn; auto; reflexivity.
  - cbn. unfold h_close, h_logout. destruct (iss =?s "") eqn:E.
    + unfold on_session. destruct (client_of_session h state) as [i|]; [|left; reflexivity]. right. exists i, (CLogout W state uri).
      split; [now apply on_client_at|]. cbn; auto.
    + right. exists iss, (CLogout W state uri). split; [now apply on_client_at|]. cbn; auto.
  - eapply SES with (c := CClear state); cbn; auto; reflexivity.
Qed.

(** two handlers with the same clients, one after histories of calls on each *)
Definition reached (h0 h : handler) (tr : string -> list call) : Prop :=
  dkeys h = dkeys h0 /\
  forall i, dget i h = match dget i h0 with
                       | None => None
                       | Some cl => Some (set_ctx (run_calls cl (tr i) (cl_ctx cl)) cl)
                       end.
Lemma run_calls_app cl a b c : run_calls cl (a ++ b) c = run_calls cl b (run_calls cl a c).
Proof. unfold run_calls. apply fold_left_app. Qed.
Lemma set_ctx_same cl : set_ctx (cl_ctx cl) cl = cl.
Proof. now destruct cl. Qed.
Lemma reached_refl h : reached h h (fun _ => []).
Proof. split; [reflexivity|]. intros i. destruct (dget i h) as [cl|]; [|reflexivity]. cbn. now rewrite set_ctx_same. Qed.
Lemma run_call_ctx cl x o c : run_call (set_ctx x cl) o c = run_call cl o c.
Proof. destruct o; reflexivity. Qed.
Lemma reached_at h0 h tr i o : reached h0 h tr ->
  reached h0 (at_client i o h) (fun j => if i =?s j then tr j ++ [o] else tr j).
Proof.
  intros [K R]. unfold at_client. pose proof (R i) as Ri. destruct (dget i h0) as [cl|] eqn:E; rewrite Ri.
  - split.
    + rewrite dkeys_dset. assert (D : dhas i h = true) by (unfold dhas; now rewrite Ri). rewrite D. exact K.
    + intros j. rewrite dget_dset. destruct (i =?s j) eqn:J.
      * apply String.eqb_eq in J. subst j. rewrite E. rewrite run_calls_app. cbn [run_calls fold_left].
        rewrite run_call_ctx. reflexivity.
      * apply R.
  - split; [exact K|]. intros j. destruct (String.eqb_spec i j) as [<-|N]; [now rewrite E|apply R].
Qed.
Definition traced (h0 h : handler) (os : list hcall) (tr : string -> list call) : Prop :=
  reached h0 h tr /\ (forall i, Forall call_ok (tr i)) /\
  (forall i c, In c (tr i) -> exists o, In o os /\ begins o i c /\ clears o c).
Lemma hcalls_traced os : forall h0, Forall hcall_ok os -> exists tr, traced h0 (run_hcalls h0 os) os tr.
Proof.
  induction os as [|o os IH] using rev_ind; intros h0 OK.
  - exists (fun _ => []). split; [apply reached_refl|]. split; [constructor|contradiction].
  - apply Forall_app in OK. destruct OK as [O1 O2]. inversion O2 as [|? ? O3 _]; subst.
    destruct (IH h0 O1) as (tr & T1 & T2 & T3). unfold run_hcalls. rewrite fold_left_app. cbn [fold_left].
    fold (run_hcalls h0 os).
    destruct (hcall_at (run_hcalls h0 os) o O3) as [->|(i & c & -> & C1 & C2 & C3)].
    + exists tr. split; [exact T1|]. split; [exact T2|]. intros j c Hc. destruct (T3 _ _ Hc) as (o' & I & B). exists o'. split; [apply in_or_app; auto|exact B].
    + exists (fun j => if i =?s j then tr j ++ [c] else tr j). split; [now apply reached_at|]. split.
      * intros j. destruct (i =?s j); [|apply T2]. apply Forall_app. split; [apply T2|]. constructor; auto.
      * intros j x Hx. destruct (String.eqb_spec i j) as [<-|N].
        -- apply in_app_or in Hx. destruct Hx as [Hx|[<-|[]]].
           ++ destruct (T3 _ _ Hx) as (o' & I & B). exists o'. split; [apply in_or_app; auto|exact B].
           ++ exists o. split; [apply in_or_app; right; now left|auto].
        -- destruct (T3 _ _ Hx) as (o' & I & B). exists o'. split; [apply in_or_app; auto|exact B].
Qed.

(** what a client of a reached handler answers about a session *)
Lemma client_iss h0 os i cl k : fresh_handler h0 -> Forall hcall_ok os -> rnd32 k ->
  dget i (run_hcalls h0 os) = Some cl ->
  (get_iss (sdb (cl_ctx cl)) k = Ok (VStr i) /\ exists W reqs beh, In (HInit W i reqs beh) os /\ e_state W = k) \/
  exists e, get_iss (sdb (cl_ctx cl)) k = Err (KeyError e).
Proof.
  intros [F1 F2] OK HK D. destruct (hcalls_traced os h0 OK) as (tr & [_ R] & T2 & T3). rewrite R in D.
  destruct (dget i h0) as [cl0|] eqn:E; [|discriminate]. injection D as <-. cbn [cl_ctx set_ctx].
  destruct (F2 _ _ E) as (P1 & P2 & P3 & P4).
  destruct (calls_ops cl0 (tr i) (cl_ctx cl0) P1 (T2 i) P2) as (ops & O1 & O2 & O3).
  destruct (store_observations rnd32 ops rnd32_family O1) as [_ S]. specialize (S k HK).
  destruct (get_iss (sdb (run_calls cl0 (tr i) (cl_ctx cl0))) k) as [v|e] eqn:G.
  - left. destruct (session_provenance cl0 (tr i) (cl_ctx cl0) k v P1 (T2 i) P2 G) as (-> & W & reqs & beh & I & S2).
    rewrite P3. split; [reflexivity|]. destruct (T3 _ _ I) as (o & J & B & _). cbn in B. subst o. eauto 6.
  - right. rewrite <- O3, G in S. destruct (latest_iss (rev ops) k); [discriminate|]. destruct S as [x S]. exists x. congruence.
Qed.
Lemma hcalls_keys h0 os : Forall hcall_ok os -> dkeys (run_hcalls h0 os) = dkeys h0.
Proof. intros OK. destruct (hcalls_traced os h0 OK) as (tr & [K _] & _). exact K. Qed.

(** ** routing in an arbitrary handler *)
Lemma state2issuer_sound h k i : state2issuer h k = Ok (Some i) ->
  exists j cl, In (j, cl) h /\ get_iss (sdb (cl_ctx cl)) k = Ok i /\ truthy i = true.
Proof.
  induction h as [|[j cl] h IH]; cbn [state2issuer]; [discriminate|].
  assert (R : state2issuer h k = Ok (Some i) -> exists j0 cl0, In (j0, cl0) ((j, cl) :: h) /\ get_iss (sdb (cl_ctx cl0)) k = Ok i /\ truthy i = true).
  { intros H. destruct (IH H) as (j' & cl' & A & B). exists j', cl'. split; [now right|exact B]. }
  destruct (get_iss (sdb (cl_ctx cl)) k) as [v|e] eqn:G.
  - destruct (truthy v) eqn:T; [|exact R]. intros [= <-]. exists j, cl. split; [now left|auto].
  - destruct e; try discriminate. exact R.
Qed.
Lemma state2issuer_none h k : state2issuer h k = Ok None <->
  forall j cl, In (j, cl) h -> (exists e, get_iss (sdb (cl_ctx cl)) k = Err (KeyError e)) \/ exists i, get_iss (sdb (cl_ctx cl)) k = Ok i /\ truthy i = false.
Proof.
  induction h as [|[j cl] h IH]; cbn [state2issuer].
  - split; [contradiction|reflexivity].
  - split.
    + intros H j' cl' [I|I]; [injection I as <- <-|].
      * destruct (get_iss (sdb (cl_ctx cl)) k) as [v|e]; [destruct (truthy v) eqn:T; [discriminate|right; eauto]|]. destruct e; try discriminate. left; eauto.
      * apply IH with j'; [|assumption]. destruct (get_iss (sdb (cl_ctx cl)) k) as [v|e]; [destruct (truthy v); [discriminate|assumption]|]. destruct e; try discriminate. assumption.
    + intros H. destruct (H j cl (or_introl eq_refl)) as [(e & ->)|(i & -> & ->)]; apply IH; intros j' cl' I; apply (H j' cl'); now right.
Qed.
Lemma client_of_session_sound h k i : client_of_session h k = Ok i ->
  (exists cl, dget i h = Some cl) /\ exists j cl, In (j, cl) h /\ get_iss (sdb (cl_ctx cl)) k = Ok (VStr i).
Proof.
  unfold client_of_session. destruct (state2issuer h k) as [[v|]|] eqn:S; cbn [rbind]; try discriminate.
  destruct v as [| | |s| |]; try discriminate. destruct (dhas s h) eqn:D; [|discriminate]. intros [= <-].
  destruct (state2issuer_sound _ _ _ S) as (j & cl & A & B & _). split; [|eauto].
  unfold dhas in D. destruct (dget s h); [eauto|discriminate].
Qed.

(** ** routing in a reached handler *)
Lemma In_dget_NoDup (h : handler) i cl : NoDup (dkeys h) -> In (i, cl) h -> dget i h = Some cl.
Proof. intros N I. now apply dget_of_In. Qed.
Lemma route_known h0 os i k : fresh_handler h0 -> Forall hcall_ok os -> rnd32 k -> begun_only_at k i os ->
  knows (run_hcalls h0 os) i k ->
  state2issuer (run_hcalls h0 os) k = Ok (Some (VStr i)) /\ client_of_session (run_hcalls h0 os) k = Ok i.
Proof.
  intros F OK HK U (cl & v & D & G).
  assert (N : NoDup (dkeys (run_hcalls h0 os))) by (rewrite hcalls_keys by assumption; apply F).
  assert (ALL : forall j cl', In (j, cl') (run_hcalls h0 os) -> j = i \/ exists e, get_iss (sdb (cl_ctx cl')) k = Err (KeyError e)).
  { intros j cl' I. apply In_dget_NoDup in I; [|exact N]. destruct (client_iss h0 os j cl' k F OK HK I) as [[_ (W & reqs & beh & J & E)]|X]; [|auto].
    left. eapply U; eauto. }
  assert (NE : i <> "").
  { destruct (hcalls_traced os h0 OK) as (tr & [_ R] & _). rewrite R in D. destruct (dget i h0) eqn:E; [|discriminate]. now destruct (proj2 F _ _ E). }
  assert (V : get_iss (sdb (cl_ctx cl)) k = Ok (VStr i)).
  { destruct (client_iss h0 os i cl k F OK HK D) as [[A _]|[e A]]; [exact A|congruence]. }
  assert (S : state2issuer (run_hcalls h0 os) k = Ok (Some (VStr i))).
  { revert ALL D N. generalize (run_hcalls h0 os). intros h. induction h as [|[j c] h IH]; intros ALL D N; [discriminate|]. cbn [state2issuer].
    cbn [dget] in D. destruct (String.eqb_spec j i) as [->|NJ].
    - injection D as ->. rewrite V. cbn [truthy]. rewrite (eqb_neq _ _ NE). reflexivity.
    - destruct (ALL j c (or_introl eq_refl)) as [->|[e ->]]; [contradiction|]. inversion N; subst. apply IH; auto. intros j' c' I. apply ALL. now right. }
  split; [exact S|]. unfold client_of_session. rewrite S. cbn [rbind]. unfold dhas. now rewrite D.
Qed.
Lemma route_unknown h0 os k : fresh_handler h0 -> Forall hcall_ok os -> rnd32 k ->
  (state2issuer (run_hcalls h0 os) k = Ok None <-> forall i, ~ knows (run_hcalls h0 os) i k) /\
  ((forall i, ~ knows (run_hcalls h0 os) i k) -> client_of_session (run_hcalls h0 os) k = Err (KeyError "None")).
Proof.
  intros F OK HK.
  assert (N : NoDup (dkeys (run_hcalls h0 os))) by (rewrite hcalls_keys by assumption; apply F).
  assert (S : state2issuer (run_hcalls h0 os) k = Ok None <-> forall i, ~ knows (run_hcalls h0 os) i k).
  { rewrite state2issuer_none. split.
    - intros H i (cl & v & D & G). destruct (H i cl (dget_In _ _ _ D)) as [[e E]|(x & E & T)]; [congruence|].
      destruct (client_iss h0 os i cl k F OK HK D) as [[A _]|[e A]]; [|congruence]. rewrite A in E. injection E as <-. cbn in T.
      apply negb_false_iff, String.eqb_eq in T. subst i.
      destruct (hcalls_traced os h0 OK) as (tr & [_ R] & _). rewrite R in D. destruct (dget "" h0) eqn:E; [|discriminate]. now destruct (proj2 F _ _ E) as (_ & _ & _ & ?).
    - intros H j cl I. apply In_dget_NoDup in I; [|exact N]. destruct (client_iss h0 os j cl k F OK HK I) as [[A _]|X]; [|auto].
      destruct (H j). exists cl, (VStr j). auto. }
  split; [exact S|]. intros H. apply S in H. unfold client_of_session. now rewrite H.
Qed.
(** a key leads to a client that has the session *)
Lemma route_sound h0 os k i : fresh_handler h0 -> Forall hcall_ok os -> rnd32 k ->
  client_of_session (run_hcalls h0 os) k = Ok i ->
  exists cl, dget i (run_hcalls h0 os) = Some cl /\ get_iss (sdb (cl_ctx cl)) k = Ok (VStr i) /\
    exists W reqs beh, In (HInit W i reqs beh) os /\ e_state W = k.
Proof.
  intros F OK HK H. assert (N : NoDup (dkeys (run_hcalls h0 os))) by (rewrite hcalls_keys by assumption; apply F).
  destruct (client_of_session_sound _ _ _ H) as (_ & j & cl & I & G). apply In_dget_NoDup in I; [|exact N].
  destruct (client_iss h0 os j cl k F OK HK I) as [[A B]|[e A]]; [|congruence]. rewrite A in G. injection G as ->. eauto.
Qed.

(** ** from the beginning of a session to any later moment *)
Lemma iss_step K d o k i : key_family K -> op_ok K o -> K k ->
  match o with Create rnd _ key => created_key rnd key <> k | Remove k' => k' <> k | _ => True end ->
  get_iss d k = Ok i -> get_iss (snd (cstep d o)) k = Ok i.
Proof.
  intros HK Ho Hk Hn G.
  assert (ISO : forall k0, k0 = (match o with Create r _ key => created_key r key | Store _ _ _ k => k | Bind _ _ k => k | Remove k => k end) ->
     (k <> k0 \/ exists x v, o = Bind x v k0) -> get_iss (snd (cstep d o)) k = Ok i).
  { intros k0 H1 H2. pose proof (sessions_isolated K d o k0 k HK Ho Hk H1 H2) as X. unfold get_iss in *. now rewrite X. }
  destruct o as [rnd iss key|c m t' k'|x v k'|k'].
  - eapply ISO; [reflexivity|]. left. congruence.
  - destruct (String.eqb_spec k' k) as [->|]; [|eapply ISO; [reflexivity|left; congruence]].
    cbn [cstep]. destruct (store_item (IMsg c m) t' k d) as [r d'] eqn:E. cbn [snd].
    pose proof (store_item_effect _ _ _ _ _ _ _ E) as X. destruct r as [[]|e]; [|now subst]. destruct Ho as [_ Ho].
    destruct X as (_ & _ & X & _). now apply X.
  - eapply ISO; [reflexivity|]. right. eauto.
  - eapply ISO; [reflexivity|]. left. congruence.
Qed.
Ltac no_op :=
  repeat match goal with
  | H : exists _, _ |- _ => destruct H
  | H : _ /\ _ |- _ => destruct H
  | H : _ \/ _ |- _ => destruct H
  end; congruence || contradiction.
Lemma calls_iss cl os k i : plain_client cl -> Forall call_ok os -> rnd32 k -> (forall o, In o os -> leaves k o) ->
  forall c, closed rnd32 (sdb c) -> get_iss (sdb c) k = Ok i -> get_iss (sdb (run_calls cl os c)) k = Ok i.
Proof.
  intros PC Ho Hk Hl c C G. destruct (calls_write cl os PC Ho c C) as (_ & ops & F & ->).
  assert (S : forall o, In o ops -> match o with Create rnd _ key => created_key rnd key <> k | Remove k' => k' <> k | _ => True end).
  { intros x Hx. rewrite Forall_forall in F. destruct (F _ Hx) as (_ & o & Hin & Hc). specialize (Hl _ Hin).
    destruct x as [rnd j key| | |k']; try exact I.
    - destruct o; cbn in Hc, Hl; unfold final_op, final_bind, refresh_op, front_op, authz_op, token_op, userinfo_op, logout_op in Hc; no_op.
    - destruct o; cbn in Hc, Hl; unfold final_op, final_bind, refresh_op, front_op, authz_op, token_op, userinfo_op, logout_op in Hc; no_op. }
  clear C Hl. revert S G. generalize (sdb c). induction F as [|o ops F1 F2 IH]; intros d S G; [exact G|].
  cbn [crun]. pose proof (iss_step rnd32 d o k i rnd32_family (proj1 F1) Hk (S o (or_introl eq_refl)) G) as G1.
  destruct (cstep d o) as [x d1]. cbn [snd] in G1. specialize (IH d1 (fun o' H => S o' (or_intror H)) G1).
  destruct (crun d1 ops). exact IH.
Qed.
Lemma begun_routes_back h0 os0 os1 W i reqs beh u k h1 : fresh_handler h0 -> Forall hcall_ok os0 -> Forall hcall_ok os1 ->
  rnd32 (e_state W) -> (forall m v, e_hash W m v <> "") ->
  on_client i (fun cl => init_authorization W cl reqs beh) (run_hcalls h0 os0) = (Ok (u, k), h1) ->
  (forall o, In o os1 -> hleaves k o) -> begun_only_at k i os0 ->
  state2issuer (run_hcalls h1 os1) k = Ok (Some (VStr i)) /\ client_of_session (run_hcalls h1 os1) k = Ok i.
Proof.
  intros F O0 O1 HK HH H HL B.
  set (o := HInit W i reqs beh).
  assert (E1 : h1 = run_hcalls h0 (os0 ++ [o])).
  { unfold run_hcalls. rewrite fold_left_app. cbn [fold_left run_hcall o]. fold (run_hcalls h0 os0). now rewrite H. }
  assert (E2 : run_hcalls h1 os1 = run_hcalls h0 ((os0 ++ [o]) ++ os1)).
  { rewrite E1. unfold run_hcalls. now rewrite <- fold_left_app. }
  assert (OK : Forall hcall_ok ((os0 ++ [o]) ++ os1)).
  { apply Forall_app. split; [apply Forall_app; split; [assumption|constructor; [exact HK|constructor]]|assumption]. }
  destruct (hcalls_traced os0 h0 O0) as (tr & [KS R] & T2 & T3).
  unfold on_client in H. destruct (dget i (run_hcalls h0 os0)) as [cl|] eqn:D; [|discriminate].
  destruct (init_authorization W cl reqs beh (cl_ctx cl)) as [r c1] eqn:I. injection H as -> EH.
  pose proof (R i) as Ri. rewrite D in Ri. destruct (dget i h0) as [cl0|] eqn:D0; [|discriminate]. injection Ri as Ecl.
  destruct (proj2 F _ _ D0) as (P1 & P2 & P3 & P4).
  assert (ISS : issuer (cl_ctx cl) = i).
  { rewrite Ecl. cbn [cl_ctx set_ctx]. rewrite (history_keeps cl0 (tr i) (cl_ctx cl0) P1 (T2 i)); [exact P3|]. rewrite P2. apply closed_nil. }
  assert (PC : plain_client cl) by (rewrite Ecl; exact P1).
  assert (CL0 : closed rnd32 (sdb (cl_ctx cl))) by (rewrite Ecl; apply closed_reach; auto).
  destruct (init_spec rnd32 _ _ _ _ _ _ _ _ rnd32_family HK (proj1 PC) HH I) as (Ek & args & req & ep & _ & _ & _ & _ & _ & _ & _ & G & _).
  rewrite ISS in G. specialize (G P4).
  pose proof (init_closed cl W reqs beh _ _ _ _ PC HK CL0 I) as CL1.
  destruct (hcalls_traced os1 h1 O1) as (tr1 & [KS1 R1] & T21 & T31).
  assert (KN : knows (run_hcalls h1 os1) i k).
  { pose proof (R1 i) as R1i. rewrite <- EH, dget_dset_eq in R1i. rewrite EH in R1i. eexists. exists (VStr i). split; [exact R1i|]. cbn [cl_ctx set_ctx].
    apply calls_iss; auto; [congruence|]. intros c Hc. destruct (T31 _ _ Hc) as (o' & J & B1 & B2). specialize (HL _ J).
    destruct c; cbn in *; auto; subst o'; exact HL. }
  rewrite E2 in KN |- *. apply route_known; auto; [congruence|].
  intros W' iss reqs' beh' J E. apply in_app_or in J. destruct J as [J|J].
  - apply in_app_or in J. destruct J as [J|[J|[]]]; [eapply B; eauto|]. unfold o in J. congruence.
  - specialize (HL _ J). cbn in HL. contradiction.
Qed.
