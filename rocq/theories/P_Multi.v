(** Proofs for T_Multi.v *)
From Verif Require Import Base BaseP Json JsonP Msg M_State S_State P_State M_Ctx M_Codec M_Authz M_ClientAuth
  M_Service M_Token M_Handler S_Service S_Token S_Handler S_Flow S_Trace S_Sched S_Route S_Multi P_Ctx P_Authz P_Codec P_ClientAuth P_Service P_Wire P_Token
  P_Handler P_Flow P_Token2 P_Trace P_Flow2 P_Handler2 P_Route P_Sim P_SimK P_Sched T_Sched.

Definition client_call (o : hcall) : call :=
  match o with
  | HInit W _ reqs beh => CInit W reqs beh
  | HFinalize W iss resp collect => CFinalize W iss resp collect
  | HFinalizeAuth W iss resp => CFinalizeAuth W iss resp
  | HTokens W st => CTokens W st
  | HRefresh W st scope => CRefresh W st scope
  | HUserInfo W st tok => CUserInfo W st tok
  | HLogout W st uri => CLogout W st uri
  | HClose W st _ uri => CLogout W st uri
  | HClear st => CClear st
  end.
Lemma run_at h o : run_hcall h o = match client_for h o with Ok i => at_client i (client_call o) h | Err _ => h end.
Proof.
  assert (SES : forall A st (f : client -> M A) c, (forall cl x, snd (f cl x) = run_call cl c x) ->
    snd (on_session st f h) = match client_of_session h st with Ok i => at_client i c h | Err _ => h end).
  { intros A st f c H1. unfold on_session. destruct (client_of_session h st) as [i|]; [|reflexivity]. now apply on_client_at. }
  destruct o; cbn [run_hcall client_for client_call].
  - now apply on_client_at.
  - now apply on_client_at.
  - now apply on_client_at.
  - now apply SES.
  - now apply SES.
  - now apply SES.
  - now apply SES.
  - unfold h_close. destruct (iss =?s ""); [now apply SES|now apply on_client_at].
  - now apply SES.
Qed.
Lemma answer_at h o : hanswer h o = match client_for h o with
  | Ok i => match dget i h with Some cl => answer_of cl (client_call o) (cl_ctx cl) | None => Err (KeyError i) end
  | Err e => Err e end.
Proof.
  assert (CL : forall A (g : A -> answer) i (f : client -> M A) c, (forall cl x, rmap g (fst (f cl x)) = answer_of cl c x) ->
    rmap g (fst (on_client i f h)) = match dget i h with Some cl => answer_of cl c (cl_ctx cl) | None => Err (KeyError i) end).
  { intros A g i f c H. unfold on_client. destruct (dget i h) as [cl|]; [|reflexivity]. rewrite <- H. now destruct (f cl (cl_ctx cl)). }
  assert (SES : forall A (g : A -> answer) st (f : client -> M A) c, (forall cl x, rmap g (fst (f cl x)) = answer_of cl c x) ->
    rmap g (fst (on_session st f h)) = match client_of_session h st with
     | Ok i => match dget i h with Some cl => answer_of cl c (cl_ctx cl) | None => Err (KeyError i) end | Err e => Err e end).
  { intros A g st f c H. unfold on_session. destruct (client_of_session h st) as [i|]; [now apply CL|reflexivity]. }
  destruct o; cbn [hanswer client_for client_call].
  - now apply CL.
  - now apply CL.
  - now apply CL.
  - now apply SES.
  - now apply SES.
  - now apply SES.
  - now apply SES.
  - unfold h_close. destruct (iss =?s ""); [now apply SES|now apply CL].
  - now apply SES.
Qed.
Lemma answer_ctx cl x o c : answer_of (set_ctx x cl) o c = answer_of cl o c.
Proof. destruct o; reflexivity. Qed.
Lemma at_other i j o h : i <> j -> dget j (at_client i o h) = dget j h.
Proof. intros N. unfold at_client. destruct (dget i h); [|reflexivity]. now rewrite dget_dset_neq. Qed.
Lemma at_same i o h cl x : dget i h = Some (set_ctx x cl) -> dget i (at_client i o h) = Some (set_ctx (run_call cl o x) cl).
Proof. intros D. unfold at_client. rewrite D, dget_dset_eq. cbn [cl_ctx set_ctx]. now rewrite run_call_ctx. Qed.

(** the frame: a call leaves the other clients alone *)
Lemma run_frame h o j : client_for h o <> Ok j -> dget j (run_hcall h o) = dget j h.
Proof. intros N. rewrite run_at. destruct (client_for h o) as [i|]; [|reflexivity]. apply at_other. congruence. Qed.
Lemma run_keys h o : dkeys (run_hcall h o) = dkeys h.
Proof.
  rewrite run_at. destruct (client_for h o) as [i|]; [|reflexivity]. unfold at_client. destruct (dget i h) as [cl|] eqn:D; [|reflexivity].
  rewrite dkeys_dset. unfold dhas. now rewrite D.
Qed.

Lemma about_concerns h o i k : client_for h o = Ok i -> about k (client_call o) = concerns i k o.
Proof.
  destruct o; cbn [client_for client_call concerns]; unfold about; cbn [session_of]; intros H; try reflexivity.
  - injection H as ->. now rewrite eqb_refl.
  - injection H as ->. now rewrite eqb_refl.
  - injection H as ->. now rewrite eqb_refl.
  - destruct (iss =?s "") eqn:E; [now rewrite andb_true_r|]. injection H as ->. now rewrite eqb_refl, andb_true_r.
Qed.
(** which way the client is found does not depend on the handler *)
Lemma concerns_both o i k : concerns i k o = true ->
  (forall h, client_for h o = Ok i) \/ (forall h, client_for h o = client_of_session h k).
Proof.
  destruct o; cbn [client_for concerns]; intros H.
  - apply andb_prop in H. destruct H as [H _]. apply String.eqb_eq in H. left; congruence.
  - apply andb_prop in H. destruct H as [H _]. apply String.eqb_eq in H. left; congruence.
  - apply andb_prop in H. destruct H as [H _]. apply String.eqb_eq in H. left; congruence.
  - apply String.eqb_eq in H. right; congruence.
  - apply String.eqb_eq in H. right; congruence.
  - apply String.eqb_eq in H. right; congruence.
  - apply String.eqb_eq in H. right; congruence.
  - apply andb_prop in H. destruct H as [H1 H2]. apply String.eqb_eq in H1. destruct (iss =?s "") eqn:E; [right; congruence|].
    cbn in H2. apply String.eqb_eq in H2. left; congruence.
  - apply String.eqb_eq in H. right; congruence.
Qed.

(** the calls that may reach client [i] *)
Definition reaches (i : string) (o : hcall) : bool := match o with HInit _ iss _ _ => iss =?s i | _ => true end.
Definition reach (i : string) (os : list hcall) : list call := map client_call (filter (reaches i) os).
Lemma reach_in i os o h : In o os -> client_for h o = Ok i -> In (client_call o) (reach i os).
Proof.
  intros I C. unfold reach. apply in_map. apply filter_In. split; [exact I|]. destruct o; try reflexivity.
  cbn in C. injection C as ->. apply eqb_refl.
Qed.
Lemma reach_of i os c : In c (reach i os) -> exists o, In o os /\ client_call o = c /\ reaches i o = true.
Proof. unfold reach. rewrite in_map_iff. intros (o & <- & F). apply filter_In in F. exists o. tauto. Qed.
Lemma reach_schedule c i k os : hschedule c i k os -> schedule c k (reach i os).
Proof.
  intros (H1 & H2 & H3 & H4 & H5). split; [|split; [|split]].
  - apply Forall_forall. intros x Hx. destruct (reach_of _ _ _ Hx) as (o & I & <- & _). rewrite Forall_forall in H1. specialize (H1 _ I).
    destruct o; exact H1.
  - apply Forall_forall. intros x Hx. destruct (reach_of _ _ _ Hx) as (o & I & <- & _). specialize (H2 o).
    destruct o; unfold tame_call; cbn [client_call world_of]; try (apply H2; [exact I|reflexivity]); exact Logic.I.
  - intros W reqs beh W' reqs' beh' n A B. destruct (reach_of _ _ _ A) as (o & I & E & R). destruct (reach_of _ _ _ B) as (o' & I' & E' & R').
    destruct o; try discriminate E. destruct o'; try discriminate E'. cbn in E, E', R, R'. injection E as -> -> ->. injection E' as -> -> ->.
    apply String.eqb_eq in R. apply String.eqb_eq in R'. subst. eapply H4; eauto.
  - intros A. destruct (reach_of _ _ _ A) as (o & I & E & _). destruct o; try discriminate E. cbn in E. injection E as ->. contradiction.
Qed.

Section Two.
  Variables (h0 : handler) (i k : string) (cl : client) (os : list hcall).
  Hypothesis F : fresh_handler h0.
  Hypothesis D : dget i h0 = Some cl.
  Hypothesis HK : rnd32 k.
  Hypothesis S : hschedule (cl_ctx cl) i k os.
  Let c0 := cl_ctx cl.
  Let solo : handler := [(i, cl)].
  Lemma solo_fresh : fresh_handler solo.
  Proof.
    split; [cbn; constructor; [intros []|constructor]|]. intros j cl'. cbn. destruct (String.eqb_spec i j) as [<-|]; [|discriminate].
    intros [= <-]. now apply F.
  Qed.
  (** both handlers after the same beginning *)
  Definition both (tr : list call) (h1 h2 : handler) : Prop :=
    incl tr (reach i os) /\ dget i h1 = Some (set_ctx (run_calls cl tr c0) cl) /\
    dget i h2 = Some (set_ctx (run_calls cl (calls_of k tr) c0) cl).
  Lemma both_rel tr h1 h2 : both tr h1 h2 -> Rc k c0 (run_calls cl tr c0) (run_calls cl (calls_of k tr) c0).
  Proof.
    intros [I _]. destruct (proj2 F _ _ D) as (P1 & P2 & _).
    apply (schedule_run k c0 cl (reach i os) HK P1 (reach_schedule _ _ _ _ S) tr I c0 c0 (Rc_start k c0 P2) (Inv_start k c0 _ P2)).
  Qed.
  Lemma done_ok done : incl done os -> Forall hcall_ok done /\ begun_only_at k i done.
  Proof.
    intros I. destruct S as (H1 & _ & H3 & _). split.
    - rewrite Forall_forall in *. auto.
    - intros W iss reqs beh J. eapply H3. apply I. exact J.
  Qed.
  (** where the key leads *)
  Lemma route h done cl1 : fresh_handler h -> incl done os -> dget i (run_hcalls h done) = Some cl1 ->
    client_of_session (run_hcalls h done) k =
      match get_iss (sdb (cl_ctx cl1)) k with Ok _ => Ok i | Err _ => Err (KeyError "None") end.
  Proof.
    intros FH I D1. destruct (done_ok done I) as [O B].
    destruct (client_iss h done i cl1 k FH O HK D1) as [[A _]|[e A]]; rewrite A.
    - apply route_known; auto. exists cl1, (VStr i). auto.
    - apply route_unknown; auto. intros j (cl2 & v & D2 & G). destruct (client_iss h done j cl2 k FH O HK D2) as [[_ (W & reqs & beh & J & E)]|[e' A']]; [|congruence].
      assert (j = i) by (eapply B; eauto). subst j. congruence.
  Qed.
  Lemma same_route done1 done2 tr : incl done1 os -> incl done2 os -> both tr (run_hcalls h0 done1) (run_hcalls solo done2) ->
    client_of_session (run_hcalls h0 done1) k = client_of_session (run_hcalls solo done2) k.
  Proof.
    intros I1 I2 B. pose proof (both_rel _ _ _ B) as (R & _). destruct B as (_ & D1 & D2).
    rewrite (route h0 done1 _ F I1 D1), (route solo done2 _ solo_fresh I2 D2). cbn [cl_ctx set_ctx].
    now rewrite (R_iss k _ _ R).
  Qed.
  Lemma route_ok h done j : fresh_handler h -> incl done os -> client_of_session (run_hcalls h done) k = Ok j -> j = i.
  Proof.
    intros FH I H. destruct (done_ok done I) as [O B]. destruct (route_sound h done k j FH O HK H) as (_ & _ & _ & W & reqs & beh & J & E). eapply B; eauto.
  Qed.
  Lemma same_for done1 done2 tr o : incl done1 os -> incl done2 os -> both tr (run_hcalls h0 done1) (run_hcalls solo done2) ->
    concerns i k o = true ->
    (client_for (run_hcalls h0 done1) o = Ok i /\ client_for (run_hcalls solo done2) o = Ok i) \/
    exists e, client_for (run_hcalls h0 done1) o = Err e /\ client_for (run_hcalls solo done2) o = Err e.
  Proof.
    intros I1 I2 B C. destruct (concerns_both o i k C) as [E|E].
    - left. split; apply E.
    - rewrite !E. pose proof (same_route done1 done2 tr I1 I2 B) as R. destruct (client_of_session (run_hcalls h0 done1) k) as [j|e] eqn:Q.
      + left. rewrite <- R. assert (j = i) by (eapply route_ok; [exact F|exact I1|exact Q]). subst j. auto.
      + right. rewrite <- R. eauto.
  Qed.
  Lemma snoc_run h done o : run_hcalls h (done ++ [o]) = run_hcall (run_hcalls h done) o.
  Proof. unfold run_hcalls. now rewrite fold_left_app. Qed.
  Lemma incl_snoc done o (l : list hcall) : incl done l -> In o l -> incl (done ++ [o]) l.
  Proof. intros A B x Hx. apply in_app_or in Hx. destruct Hx as [Hx|[<-|[]]]; auto. Qed.

  Lemma one_done done1 done2 tr o : incl done1 os -> incl done2 os -> In o os ->
    both tr (run_hcalls h0 done1) (run_hcalls solo done2) -> concerns i k o = true ->
    same_outcome (hanswer (run_hcalls h0 done1) o) (hanswer (run_hcalls solo done2) o) /\
    exists tr', both tr' (run_hcalls h0 (done1 ++ [o])) (run_hcalls solo (done2 ++ [o])).
  Proof.
    intros I1 I2 I B C. rewrite !answer_at, !snoc_run, !run_at.
    destruct (same_for done1 done2 tr o I1 I2 B C) as [[E1 E2]|(e & E1 & E2)]; rewrite E1, E2; [|split; [now left|now exists tr]].
    pose proof (about_concerns _ _ _ k E1) as A. rewrite C in A. pose proof (reach_in _ _ _ _ I E1) as J.
    pose proof (both_rel _ _ _ B) as R. destruct B as (IN & D1 & D2). rewrite D1, D2. cbn [cl_ctx set_ctx]. rewrite !answer_ctx.
    destruct (reach_schedule _ _ _ _ S) as (_ & T & _ & NC). rewrite Forall_forall in T.
    assert (SO : session_of (client_call o) = Some k).
    { unfold about in A. destruct (session_of (client_call o)) as [s|]; [|discriminate]. apply String.eqb_eq in A. now subst. }
    destruct (sim_call_of k c0 cl (client_call o) HK (proj1 (proj2 F _ _ D)) (T _ J) SO ltac:(congruence) _ _ R) as [S1 _].
    split; [exact S1|]. exists (tr ++ [client_call o]). split; [|split].
    - intros x Hx. apply in_app_or in Hx. destruct Hx as [Hx|[<-|[]]]; auto.
    - rewrite (at_same _ _ _ _ _ D1), run_calls_app. reflexivity.
    - rewrite (at_same _ _ _ _ _ D2). unfold calls_of. rewrite filter_app. cbn [filter]. rewrite A, run_calls_app. reflexivity.
  Qed.
  Lemma one_other done1 h2 tr o : In o os -> both tr (run_hcalls h0 done1) h2 -> concerns i k o = false ->
    exists tr', both tr' (run_hcalls h0 (done1 ++ [o])) h2.
  Proof.
    intros I (IN & D1 & D2) C. rewrite snoc_run, run_at. destruct (client_for (run_hcalls h0 done1) o) as [j|e] eqn:E; [|now exists tr].
    destruct (String.eqb_spec j i) as [->|N].
    - pose proof (about_concerns _ _ _ k E) as A. rewrite C in A. exists (tr ++ [client_call o]). split; [|split].
      + intros x Hx. apply in_app_or in Hx. destruct Hx as [Hx|[<-|[]]]; auto. eapply reach_in; eauto.
      + rewrite (at_same _ _ _ _ _ D1), run_calls_app. reflexivity.
      + unfold calls_of. rewrite filter_app. cbn [filter]. rewrite A, app_nil_r. exact D2.
    - exists tr. split; [exact IN|]. rewrite at_other by assumption. auto.
  Qed.
  Lemma multi_run todo : forall done1 done2 tr, incl done1 os -> incl done2 os -> incl todo os ->
    both tr (run_hcalls h0 done1) (run_hcalls solo done2) ->
    Forall2 same_outcome (hanswers i k todo (run_hcalls h0 done1)) (hanswers i k (hcalls_of i k todo) (run_hcalls solo done2)) /\
    exists tr', both tr' (run_hcalls h0 (done1 ++ todo)) (run_hcalls solo (done2 ++ hcalls_of i k todo)).
  Proof.
    induction todo as [|o todo IH]; intros done1 done2 tr I1 I2 I3 B.
    - cbn. split; [constructor|]. rewrite !app_nil_r. eauto.
    - assert (IO : In o os) by (apply I3; now left). assert (IT : incl todo os) by (intros x Hx; apply I3; now right).
      cbn [hanswers hcalls_of filter]. destruct (concerns i k o) eqn:C.
      + destruct (one_done done1 done2 tr o I1 I2 IO B C) as (S1 & tr' & B').
        destruct (IH (done1 ++ [o]) (done2 ++ [o]) tr') as [A1 A2]; auto using incl_snoc.
        cbn [hanswers]. rewrite C. rewrite !snoc_run in A1. split; [now constructor|].
        rewrite <- !app_assoc in A2. exact A2.
      + destruct (one_other done1 _ tr o IO B C) as (tr' & B').
        destruct (IH (done1 ++ [o]) done2 tr') as [A1 A2]; auto using incl_snoc.
        rewrite !snoc_run in A1. split; [exact A1|]. rewrite <- !app_assoc in A2. exact A2.
  Qed.
  Lemma both_start : both [] h0 solo.
  Proof.
    split; [intros x []|]. cbn [run_calls calls_of fold_left filter]. unfold c0. rewrite set_ctx_same. split; [exact D|]. cbn. now rewrite eqb_refl.
  Qed.
  Lemma multi : Forall2 same_outcome (hanswers i k os h0) (hanswers i k (hcalls_of i k os) solo) /\
    exists tr, both tr (run_hcalls h0 os) (run_hcalls solo (hcalls_of i k os)).
  Proof. apply (multi_run os [] [] []); try apply incl_refl; try (intros x []). exact both_start. Qed.
  Lemma hcalls_of_incl : incl (hcalls_of i k os) os.
  Proof. intros x Hx. now apply filter_In in Hx. Qed.
  (** what can be asked about the login afterwards *)
  Lemma asked A (f : client -> M A) : (forall x1 x2, Rc k c0 x1 x2 -> fst (f cl x1) = fst (f cl x2)) -> (forall x, f (set_ctx x cl) = f cl) ->
    fst (on_session k f (run_hcalls h0 os)) = fst (on_session k f (run_hcalls solo (hcalls_of i k os))).
  Proof.
    intros H1 H2. destruct multi as (_ & tr & B). pose proof (same_route os (hcalls_of i k os) tr (incl_refl _) hcalls_of_incl B) as R.
    pose proof (both_rel _ _ _ B) as RR. unfold on_session. rewrite <- R. destruct (client_of_session (run_hcalls h0 os) k) as [j|e] eqn:Q; [|reflexivity].
    assert (j = i) by (eapply route_ok; [exact F|apply incl_refl|exact Q]). subst j. destruct B as (_ & D1 & D2).
    unfold on_client. rewrite D1, D2, !H2. cbn [cl_ctx set_ctx]. specialize (H1 _ _ RR).
    destruct (f cl (run_calls cl tr c0)), (f cl (run_calls cl (calls_of k tr) c0)). exact H1.
  Qed.
End Two.
