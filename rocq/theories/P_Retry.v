(** Attempts to complete a login leave no trace that matters to the next attempt. *)
From Verif Require Import Base BaseP Json JsonP Msg M_State S_State P_State M_Ctx M_Codec M_Authz M_ClientAuth
  M_Service M_Token M_Handler S_Service S_Token S_Handler S_Flow S_Trace S_Sched S_Retry P_Ctx P_Authz P_Codec P_ClientAuth P_Service P_Wire P_Token
  P_Handler P_Flow P_Trace P_Flow2 P_Handler2 P_Sim P_SimK P_Sched.

Section Retry.
  Variable k : string.
  Hypothesis Hk : rnd32 k.
  Variable c00 : ctx.

  (** a store in which session [k] has the issuer [i] *)
  Definition sound (i : val) (d : db) : Prop := closed rnd32 d /\ (exists a, rel rnd32 d a) /\ get_iss d k = Ok i.
  Definition own_op (o : op) : Prop :=
    match o with Store _ _ t q => q = k /\ t <> "iss" | Bind x _ q => q = k /\ In x kinds | _ => False end.
  Lemma own_ok o : own_op o -> op_ok rnd32 o.
  Proof. destruct o; cbn; try contradiction; intros [-> H]; auto. Qed.
  Lemma own_done i d o : sound i d -> own_op o -> fst (cstep d o) = Ok "".
  Proof.
    intros (_ & (a & R) & _) H. pose proof (step_rel rnd32 rnd32_family d a o R (own_ok _ H)) as [X _].
    destruct o; cbn in H; try contradiction; exact X.
  Qed.
  Lemma own_step i d o : sound i d -> own_op o ->
    sound i (snd (cstep d o)) /\
    (forall cc t, t <> "iss" -> get_item (snd (cstep d o)) cc t k =
       match o with Store c m t' _ => if t' =?s t then msg_new cc (msg_to_dict c m) else get_item d cc t k | _ => get_item d cc t k end) /\
    (forall n, dget (idx "nonce" n) (snd (cstep d o)) =
       match o with Bind x v _ => if (x =?s "nonce") && (v =?s n) then Some k else dget (idx "nonce" n) d | _ => dget (idx "nonce" n) d end).
  Proof.
    intros S H. assert (D := own_done _ _ _ S H). destruct S as (CL & (a & R) & I).
    assert (OK := own_ok _ H).
    assert (CL' := closed_step rnd32 rnd32_family d o CL OK).
    assert (R' := proj2 (step_rel rnd32 rnd32_family d a o R OK)).
    destruct o as [|c m t q|x v q|]; cbn in H; try contradiction; destruct H as [-> H]; cbn [cstep astep fst snd op_ok] in *.
    - destruct (store_item (IMsg c m) t k d) as [[[]|e] d'] eqn:E; [|discriminate]. cbn [fst snd] in *.
      pose proof (store_item_effect _ _ _ _ _ _ _ E) as (B1 & B2 & B3 & B4).
      split; [split; [exact CL'|split; [eauto|now apply B3]]|]. split.
      + intros cc t' Ht. destruct (t =?s t') eqn:Et; [apply eqb_true_iff in Et; subst; apply B1|]. apply B2; [|eapply get_iss_state; eauto].
        intros ->. now rewrite eqb_refl in Et.
      + intros n. apply B4. apply (K_idx rnd32 rnd32_family); [exact Hk|apply in_nonce].
    - pose proof (sessions_isolated rnd32 d (Bind x v k) k k rnd32_family OK Hk eq_refl (or_intror (ex_intro _ x (ex_intro _ v eq_refl)))) as G.
      cbn [cstep] in G. split; [split; [exact CL'|split; [eauto|]]|split].
      + unfold get_iss in *. now rewrite G.
      + intros cc t _. unfold get_item. now rewrite G.
      + intros n. destruct R' as (_ & _ & _ & R'), R as (_ & _ & _ & R). rewrite (R' _ _ in_nonce), (R _ _ in_nonce). cbn. unfold upd2. reflexivity.
  Qed.

  Variable dirty : list string.
  Definition clean (t : string) : bool := negb (mem_str t ("iss" :: dirty)).
  Definition RD (d1 d2 : db) : Prop :=
    (exists i, sound i d1 /\ sound i d2) /\
    (forall t cc, clean t = true -> get_item d1 cc t k = get_item d2 cc t k) /\
    (forall n, dget (idx "nonce" n) d1 = Some k <-> dget (idx "nonce" n) d2 = Some k).
  Local Notation Rc := (P_Sim.Rc RD c00).
  Local Notation sim := (P_Sim.sim RD c00).

  Lemma clean_iss t : clean t = true -> t <> "iss".
  Proof. intros H ->. discriminate. Qed.
  Lemma RD_refl i d : sound i d -> RD d d.
  Proof. intros S. split; [eauto|]. split; [reflexivity|intros; reflexivity]. Qed.
  Lemma RD_both d1 d2 o : RD d1 d2 -> own_op o -> fst (cstep d1 o) = fst (cstep d2 o) /\ RD (snd (cstep d1 o)) (snd (cstep d2 o)).
  Proof.
    intros ((i & S1 & S2) & A & B) H. split; [now rewrite !(own_done i)|].
    destruct (own_step i d1 o S1 H) as (T1 & A1 & B1), (own_step i d2 o S2 H) as (T2 & A2 & B2).
    split; [eauto|]. split.
    - intros t cc Ht. rewrite A1, A2 by now apply clean_iss. destruct o as [|? ? t' ?| |]; try (now apply A). destruct (t' =?s t); [reflexivity|now apply A].
    - intros n. rewrite B1, B2. destruct o as [| |x v ?|]; try apply B. destruct (_ && _); [reflexivity|apply B].
  Qed.
  Lemma RD_one d1 d2 o : RD d1 d2 -> own_op o ->
    match o with Store _ _ t _ => clean t = false | Bind x _ _ => x <> "nonce" | _ => False end -> RD d1 (snd (cstep d2 o)).
  Proof.
    intros ((i & S1 & S2) & A & B) H N. destruct (own_step i d2 o S2 H) as (T2 & A2 & B2).
    split; [eauto|]. split.
    - intros t cc Ht. rewrite A2 by now apply clean_iss. destruct o as [|? ? t' ?| |]; try (now apply A). destruct (t' =?s t) eqn:E; [|now apply A].
      apply eqb_true_iff in E. subst. congruence.
    - intros n. rewrite B2. destruct o as [| |x v ?|]; try apply B. destruct (x =?s "nonce") eqn:E; [apply eqb_true_iff in E; congruence|apply B].
  Qed.

  (** ** the interface of P_SimK.v *)
  Lemma I_item t : clean t = true -> forall d1 d2 cc, RD d1 d2 -> get_item d1 cc t k = get_item d2 cc t k.
  Proof. intros H d1 d2 cc (_ & A & _). now apply A. Qed.
  Lemma I_iss d1 d2 : RD d1 d2 -> get_iss d1 k = get_iss d2 k.
  Proof. intros ((i & (_ & _ & A) & (_ & _ & B)) & _). congruence. Qed.
  Lemma session_at i d : sound i d -> exists st, get_state d k = Ok st /\
    forall t, t <> "iss" -> match get_item d cMessage t k with
      | Ok it => exists x, (dget t st = Some (if mem_str t state_json_params then VDict x else VStr (json_dumps (VDict x)))) /\ msg_new cMessage x = Ok it
      | Err _ => dget t st = None
      end.
  Proof.
    intros (_ & (a & R) & I). pose proof (get_state_rel rnd32 d a k R Hk) as G. pose proof (get_iss_rel rnd32 d a k R Hk) as GI.
    pose proof (fun c t => get_item_rel rnd32 d a c t k R Hk) as IT.
    destruct (A_sess a k) as [s|]; [|destruct GI as (e & GI); congruence]. destruct G as (m & G & (_ & _ & SI)). exists m. split; [exact G|].
    intros t Ht. rewrite IT by exact Ht. rewrite SI by exact Ht. destruct (a_items s t) as [x|]; [|reflexivity].
    destruct (msg_new_total cMessage x eq_refl) as [it Hi]. rewrite Hi. exists x. split; [|exact Hi]. reflexivity.
  Qed.
  Lemma I_mult ts : forallb clean ts = true -> forall d1 d2 a ps o, RD d1 d2 ->
    multiple_extend_request_args d1 a k ps ts o = multiple_extend_request_args d2 a k ps ts o.
  Proof.
    intros H d1 d2 a ps o ((i & S1 & S2) & A & _). unfold multiple_extend_request_args.
    destruct (session_at i d1 S1) as (m1 & -> & B1), (session_at i d2 S2) as (m2 & -> & B2).
    revert a. induction ts as [|t ts IH]; intros a; [reflexivity|]. cbn [forallb] in H. apply andb_true_iff in H. destruct H as [Ht H]. specialize (IH H).
    cbn [mult_extend_loop]. specialize (B1 t (clean_iss _ Ht)). specialize (B2 t (clean_iss _ Ht)). rewrite (A t cMessage Ht) in B1.
    destruct (get_item d2 cMessage t k) as [it|]; [|rewrite B1, B2; apply IH].
    destruct B1 as (x1 & -> & X1), B2 as (x2 & -> & X2). destruct (mem_str t state_json_params); [|reflexivity]. rewrite X1, X2. apply IH.
  Qed.
  Lemma I_empty d1 d2 : RD d1 d2 -> get_state d1 "" = Err (KeyError "") /\ get_state d2 "" = Err (KeyError "").
  Proof. intros ((i & (C1 & _) & (C2 & _)) & _). split; now apply (closed_empty rnd32 rnd32_family). Qed.
  Lemma sim_step w {A} (f : db -> res A * db) o : own_op o ->
    (forall d1 d2, RD d1 d2 -> fst (f d1) = fst (f d2)) -> (forall d, snd (f d) = snd (cstep d o)) -> sim w (on_db f) any.
  Proof.
    intros H E F. apply sim_on; [|intros; exact I]. intros d1 d2 R. split; [now apply E|]. rewrite !F. now apply RD_both.
  Qed.
  Lemma I_store w cc m t : t <> "iss" -> sim w (on_db (store_item (IMsg cc m) t k)) any.
  Proof.
    intros Ht. assert (O : own_op (Store cc m t k)) by (split; auto).
    apply sim_step with (o := Store cc m t k); auto.
    - intros d1 d2 R. destruct R as ((i & S1 & S2) & _). pose proof (own_done _ _ _ S1 O) as X1. pose proof (own_done _ _ _ S2 O) as X2. cbn in X1, X2.
      destruct (store_item (IMsg cc m) t k d1) as [[[]|] ?], (store_item (IMsg cc m) t k d2) as [[[]|] ?]; cbn in *; congruence.
    - intros d. cbn. now destruct (store_item (IMsg cc m) t k d).
  Qed.
  Lemma I_bind w x v : In x kinds -> sim w (on_db (store_x2state v k x)) any.
  Proof.
    intros Hx. assert (O : own_op (Bind x v k)) by (split; auto).
    apply sim_step with (o := Bind x v k); auto.
    - intros d1 d2 R. destruct R as ((i & S1 & S2) & _). pose proof (own_done _ _ _ S1 O) as X1. pose proof (own_done _ _ _ S2 O) as X2. cbn in X1, X2.
      destruct (store_x2state v k x d1) as [[[]|] ?], (store_x2state v k x d2) as [[[]|] ?]; cbn in *; congruence.
    - intros d. cbn. now destruct (store_x2state v k x d).
  Qed.
  Lemma I_nonce d1 d2 n : RD d1 d2 -> get_state_by_nonce d1 n = Ok k <-> get_state_by_nonce d2 n = Ok k.
  Proof.
    intros (_ & _ & H). specialize (H n). unfold get_state_by_nonce, get_state_by_x. rewrite (index_key_ok _ _ in_nonce).
    assert (NE : k <> "") by (intros ->; destruct Hk; discriminate).
    assert (A : forall d, match dget (idx "nonce" n) d with Some s => if s =?s "" then Err (KeyError n) else Ok s | None => Err (KeyError n) end = Ok k
       <-> dget (idx "nonce" n) d = Some k).
    { intros d. destruct (dget (idx "nonce" n) d) as [s|]; [|split; discriminate]. destruct (s =?s "") eqn:E.
      - apply eqb_true_iff in E. subst. split; [discriminate|]. congruence.
      - split; congruence. }
    now rewrite !A.
  Qed.

  Lemma all_reads d1 d2 : (forall t, clean t = true <-> t <> "iss" /\ t <> "user_info") -> RD d1 d2 -> reads_the_same d1 d2 k.
  Proof.
    intros CA R. assert (CT : forallb clean token_items = true) by (apply forallb_forall; intros t Ht; apply CA; cbn in Ht; destruct Ht as [<-|[<-|[<-|[]]]]; split; discriminate).
    split; [|split; [now apply I_iss|split; [|split]]].
    - intros cc t Ht. destruct (string_dec t "iss") as [->|N]; [|apply I_item with (t := t); auto; now apply CA].
      destruct R as ((i & S1 & S2) & _). unfold get_item.
      assert (G : forall d, sound i d -> exists st z, get_state d k = Ok st /\ dget "iss" st = Some (VStr z) /\ i = VStr z).
      { intros d (_ & (a & R) & I). pose proof (get_state_rel rnd32 d a k R Hk) as G. pose proof (get_iss_rel rnd32 d a k R Hk) as GI.
        destruct (A_sess a k) as [s|]; [|destruct GI as (e & GI); congruence]. destruct G as (m & G & (_ & SI & _)). exists m.
        destruct s as [[z|] its]; cbn in *; [|destruct GI as (e & GI); congruence]. exists z. repeat split; auto. congruence. }
      destruct (G d1 S1) as (m1 & z1 & -> & -> & E1), (G d2 S2) as (m2 & z2 & -> & -> & E2). congruence.
    - intros now. unfold has_active_authentication. now rewrite (I_mult _ CT _ _ _ _ _ R).
    - intros now. unfold get_valid_access_token. 
      assert (CI : forall t, In t token_items -> forall cc, get_item d1 cc t k = get_item d2 cc t k).
      { intros t Ht cc. apply I_item; [|exact R]. rewrite forallb_forall in CT. now apply CT. }
      now rewrite !CI by (cbn; auto).
    - intros n. now apply I_nonce.
  Qed.
  Lemma RD_tighten dirty' t d1 d2 : RD d1 d2 -> (forall cc, get_item d1 cc t k = get_item d2 cc t k) ->
    (forall t', negb (mem_str t' ("iss" :: dirty')) = true -> clean t' = true \/ t' = t) ->
    (exists i, sound i d1 /\ sound i d2) /\
    (forall t' cc, negb (mem_str t' ("iss" :: dirty')) = true -> get_item d1 cc t' k = get_item d2 cc t' k) /\
    (forall n, dget (idx "nonce" n) d1 = Some k <-> dget (idx "nonce" n) d2 = Some k).
  Proof.
    intros (A & B & C) H D. split; [exact A|]. split; [|exact C]. intros t' cc Ht. destruct (D _ Ht) as [E| ->]; [now apply B|apply H].
  Qed.
End Retry.

(** ** whether the token endpoint is asked *)
Definition asks_endpoint (d : db) (k : string) (collect : bool) : bool :=
  match get_item d cAuthzRequest "auth_request" k with
  | Ok rq => match dget "response_type" rq with
             | Some (VList rt) =>
                 if one_of rt [["token"]; ["id_token"; "token"]; ["code"; "token"]; ["code"; "id_token"; "token"]] then collect
                 else one_of rt [["code"]; ["code"; "id_token"]]
             | _ => false
             end
  | Err _ => false
  end.
Lemma asks_spec d k collect : asks_endpoint d k collect = true <-> from_endpoint d k collect.
Proof.
  unfold asks_endpoint, from_endpoint. split.
  - destruct (get_item d cAuthzRequest "auth_request" k) as [rq|] eqn:E1; [|discriminate].
    destruct (dget "response_type" rq) as [[| | | |rt|]|] eqn:E2; try discriminate.
    assert (G : forall sets, one_of rt sets = true -> exists ws, In ws sets /\ words_are rt ws).
    { intros sets H. unfold one_of in H. apply existsb_exists in H. destruct H as (ws & H1 & H2). apply same_set_spec in H2. eauto. }
    destruct (one_of rt [["token"]; _; _; _]) eqn:E3.
    + intros ->. apply G in E3. destruct E3 as (ws & I & WA). exists rq, rt, ws.
      cbn in I. destruct I as [<-|[<-|[<-|[<-|[]]]]]; eexists _, _; (split; [reflexivity|]); (split; [exact E2|]); (split; [exact WA|]); (split; [cbn; eauto 10|auto]).
    + intros H. apply G in H. destruct H as (ws & I & WA). exists rq, rt, ws.
      cbn in I. destruct I as [<-|[<-|[]]]; eexists _, _; (split; [reflexivity|]); (split; [exact E2|]); (split; [exact WA|]); (split; [cbn; eauto 10|auto]).
  - intros (rq & rt & ws & sa & si & E1 & E2 & WA & I & H). rewrite E1, E2, !(one_of_eq rt ws) by exact WA.
    cbn in I. destruct I as [I|[I|[I|[I|[I|[I|[I|[]]]]]]]]; injection I as <- <- <-; destruct H as [H|[H ->]]; try discriminate; reflexivity.
Qed.
Lemma access_ep W cl m k collect c t c' : asks_endpoint (sdb c) k collect = true ->
  get_access_and_id_token W cl m k collect c = (Ok t, c') -> tokens_from_endpoint W cl k c = (Ok t, c').
Proof.
  unfold asks_endpoint, get_access_and_id_token. intros A H. apply bind_ok in H. destruct H as (rq & c1 & E1 & H).
  unfold read_db in E1. destruct (get_item (sdb c) cAuthzRequest "auth_request" k) as [rq'|]; [|discriminate]. injection E1 as -> <-.
  apply bind_ok in H. destruct H as (rt & c1 & E1 & H). unfold lift in E1.
  destruct (dget "response_type" rq) as [[| | | |l|]|]; try discriminate. injection E1 as -> <-.
  apply bind_ok in H. destruct H as (i & c1 & E1 & H). unfold lift in E1. injection E1 as _ <-.
  destruct (one_of rt [["token"]; _; _; _]).
  - apply bind_ok in H. destruct H as (a & c1 & E1 & H). unfold lift in E1. injection E1 as _ <-. subst. exact H.
  - rewrite A in H. exact H.
Qed.
Lemma access_no_ep W cl m k collect c : asks_endpoint (sdb c) k collect = false -> snd (get_access_and_id_token W cl m k collect c) = c.
Proof.
  unfold asks_endpoint, get_access_and_id_token, bind, read_db, lift. intros A.
  destruct (get_item (sdb c) cAuthzRequest "auth_request" k) as [rq|]; [|reflexivity].
  destruct (dget "response_type" rq) as [[| | | |l|]|]; try reflexivity.
  destruct (if one_of l _ then dict_get (verified "id_token") m else Ok VNone); [|reflexivity].
  destruct (one_of l [["token"]; _; _; _]).
  - destruct (dict_get "access_token" m); [|reflexivity]. subst. reflexivity.
  - now rewrite A.
Qed.

(** ** finalize on two such stores *)
Definition dirt (ep : bool) : list string := "user_info" :: if ep then ["token_response"] else [].
Lemma clean_less D D' t : (forall x, In x D -> In x D' \/ x = t) -> forall x, negb (mem_str x ("iss" :: D')) = true -> clean D x = true \/ x = t.
Proof.
  intros H x Hx. unfold clean. destruct (mem_str x ("iss" :: D)) eqn:E; [|auto]. right. apply mem_str_In in E.
  assert (N : ~ In x ("iss" :: D')) by (rewrite <- mem_str_In; now destruct (mem_str x ("iss" :: D'))).
  destruct E as [<-|E]; [exfalso; apply N; now left|]. destruct (H _ E) as [X|X]; [exfalso; apply N; now right|exact X].
Qed.
Lemma bind_run {A B} (m : M A) (f : A -> M B) c : bind m f c = match m c with (Ok a, c') => f a c' | (Err e, c') => (Err e, c') end.
Proof. unfold bind. now destruct (m c) as [[|] ?]. Qed.
Definition after (W : env) (cl : client) (collect : bool) (m : msg) : M final :=
  if is_error_message m then s <- lift (dict_get "state" m) ;; e <- lift (dict_get "error" m) ;; ret (FError s e)
  else match dget "state" m with
       | Some (VStr st) => bind (get_access_and_id_token W cl m st collect) (finish W cl m st)
       | _ => raise (KeyError "state")
       end.
Lemma finalize_run W cl iss resp collect c :
  finalize W cl iss resp collect c =
  match finalize_auth (e_vrf W "authorization") (e_now W) iss resp c with
  | (Ok m, c') => after W cl collect m c'
  | (Err e, c') => (Err e, c')
  end.
Proof. unfold finalize. rewrite bind_run. reflexivity. Qed.
Lemma sim_retry k cl W iss resp collect c0 c1 c2 : rnd32 k -> tame W -> state_of resp = Some k ->
  let D := "auth_response" :: dirt (asks_endpoint (sdb c1) k collect) in
  P_Sim.Rc (RD k D) c0 c1 c2 ->
  agree true (fst (finalize W cl iss resp collect c1)) (fst (finalize W cl iss resp collect c2)) /\
  (forall info st tok idt ss, fst (finalize W cl iss resp collect c1) = Ok (FOk info st tok idt ss) ->
     RD k ["user_info"] (sdb (snd (finalize W cl iss resp collect c1))) (sdb (snd (finalize W cl iss resp collect c2)))).
Proof.
  intros Hk T S D R. remember (asks_endpoint (sdb c1) k collect) as ep eqn:Eep.
  assert (CAR : clean D "auth_request" = true) by (subst D; destruct ep; reflexivity).
  destruct (P_SimK.sim_finalize_auth k (RD k D) c0 (clean D) (I_item k D) (I_iss k D) (I_store k Hk c0 D) W iss resp CAR T S c1 c2 R) as (A & R' & Q).
  rewrite !finalize_run.
  destruct (finalize_auth (e_vrf W "authorization") (e_now W) iss resp c1) as [[m|e] c1'] eqn:E1;
  destruct (finalize_auth (e_vrf W "authorization") (e_now W) iss resp c2) as [[m2|e2] c2'] eqn:E2; cbn [fst snd] in *;
    try (destruct A as [A|(_ & x & y & A1 & A2)]; discriminate).
  2:{ split; [right; eauto|intros; discriminate]. }
  assert (m2 = m) by (destruct A as [A|(_ & x & y & A1 & A2)]; congruence). subst m2. clear A.
  unfold after. destruct (is_error_message m) eqn:Ee.
  { unfold bind, lift. destruct (dict_get "state" m); [|split; [right; cbn; eauto|intros; discriminate]].
    destruct (dict_get "error" m); [|split; [right; cbn; eauto|intros; discriminate]]. split; [left; reflexivity|intros; discriminate]. }
  specialize (Q _ eq_refl). rewrite Q.
  (* the authorization response is now the same on both sides *)
  set (D1 := dirt ep).
  assert (F1 := finalize_auth_spec _ _ _ _ _ _ _ E1). assert (F2 := finalize_auth_spec _ _ _ _ _ _ _ E2). cbn in F1, F2.
  destruct F1 as [[F1 _]|(_ & s1 & G1 & _ & _ & I1 & U1 & _)]; [congruence|].
  destruct F2 as [[F2 _]|(_ & s2 & G2 & _ & _ & I2 & _)]; [congruence|].
  rewrite Q in G1, G2. injection G1 as <-. injection G2 as <-.
  assert (R1 : P_Sim.Rc (RD k D1) c0 c1' c2').
  { destruct R' as (R' & X1 & X2). split; [|auto]. apply (RD_tighten k D D1 "auth_response" _ _ R').
    - intros cc. now rewrite I1, I2.
    - apply clean_less. unfold D, D1. cbn. intuition. }
  assert (EP : asks_endpoint (sdb c1') k collect = ep).
  { subst ep. unfold asks_endpoint. now rewrite U1 by discriminate. }
  clear R R' E1 E2 I1 I2 U1 D CAR Eep.
  assert (C2 : forall t, In t ["auth_request"; "auth_response"; "pkce"] -> clean D1 t = true).
  { intros t Ht. unfold D1. destruct ep; cbn in Ht; destruct Ht as [<-|[<-|[<-|[]]]]; reflexivity. }
  pose proof (P_SimK.sim_access k Hk (RD k D1) c0 (clean D1) (I_item k D1) (I_iss k D1) (I_mult k Hk D1) (I_store k Hk c0 D1) (I_bind k Hk c0 D1) (I_nonce k Hk D1)
    W cl m collect (C2 _ (or_introl eq_refl)) (C2 _ (or_intror (or_introl eq_refl))) (C2 _ (or_intror (or_intror (or_introl eq_refl)))) T c1' c2' R1) as (A & R2 & _).
  pose proof (P_SimK.sim_get_tokens k Hk (RD k D1) c0 (clean D1) (I_item k D1) (I_iss k D1) (I_mult k Hk D1) (I_store k Hk c0 D1) (I_bind k Hk c0 D1) (I_nonce k Hk D1)
    W cl (C2 _ (or_introl eq_refl)) (C2 _ (or_intror (or_introl eq_refl))) (C2 _ (or_intror (or_intror (or_introl eq_refl)))) T c1' c2' R1) as (AG & RG & _).
  rewrite !bind_run.
  destruct (get_access_and_id_token W cl m k collect c1') as [[t|e] d1] eqn:E1;
  destruct (get_access_and_id_token W cl m k collect c2') as [[t2|e2] d2] eqn:E2; cbn [fst snd] in *;
    try (destruct A as [A|(_ & x & y & A1 & A2)]; discriminate).
  2:{ split; [right; eauto|intros; discriminate]. }
  assert (t2 = t) by (destruct A as [A|(_ & x & y & A1 & A2)]; congruence). subst t2. clear A.
  assert (EP2 : asks_endpoint (sdb c2') k collect = ep).
  { subst ep. destruct R1 as (RX & _). unfold asks_endpoint. now rewrite (I_item k D1 _ (C2 _ (or_introl eq_refl)) _ _ _ RX). }
  assert (R3 : P_Sim.Rc (RD k ["user_info"]) c0 d1 d2).
  { destruct R2 as (R2 & X1 & X2). split; [|auto]. destruct ep eqn:Ep; [|exact R2].
    apply (RD_tighten k D1 ["user_info"] "token_response" _ _ R2).
    - apply access_ep in E1; [|exact EP]. apply access_ep in E2; [|exact EP2]. unfold tokens_from_endpoint in E1, E2.
      apply bind_ok in E1. apply bind_ok in E2. destruct E1 as (r1 & b1 & G1 & H1), E2 as (r2 & b2 & G2 & H2). rewrite G1, G2 in AG. cbn [fst] in AG.
      assert (r2 = r1) by (destruct AG as [AG|(_ & x & y & A1 & A2)]; congruence). subst r2.
      apply bind_ok in H1. apply bind_ok in H2. destruct H1 as (a1 & b1' & L1 & H1), H2 as (a2 & b2' & L2 & H2). unfold lift in L1, L2.
      injection L1 as L1 <-. injection L2 as L2 <-. injection H1 as _ <-. injection H2 as _ <-.
      destruct r1 as [mm| |]; [|discriminate L1..].
      pose proof (token_accepted W cl k c1' mm b1 Hk G1) as (T1 & _). pose proof (token_accepted W cl k c2' mm b2 Hk G2) as (T2 & _).
      intros cc. now rewrite T1, T2.
    - apply clean_less. unfold D1. cbn. intuition. }
  clear E1 E2 R2 R1 AG RG C2.
  destruct (P_SimK.sim_finish k (RD k ["user_info"]) c0 (clean ["user_info"]) (I_mult k Hk _) (I_empty k _) (I_store k Hk c0 _) (I_bind k Hk c0 _) W cl m t eq_refl T d1 d2 R3) as (A & R4 & _).
  split; [exact A|]. intros. exact (proj1 R4).
Qed.

(** ** what attempts write *)
Lemma reach_sound cl os c0 k i : plain_client cl -> Forall call_ok os -> sdb c0 = [] ->
  get_iss (sdb (run_calls cl os c0)) k = Ok i -> sound k i (sdb (run_calls cl os c0)).
Proof.
  intros PC OK E I. split; [now apply closed_reach|]. split; [|exact I].
  destruct (calls_from_empty cl os c0 PC OK E) as (ops & F & ->). eexists. exact (proj2 (run_rel rnd32 rnd32_family ops [] ainit (rel_init rnd32) F)).
Qed.
Lemma attempt_own d k collect o : attempt_op d k collect o -> own_op k o.
Proof.
  destruct o; cbn; try contradiction.
  - intros (-> & [-> |[-> |[-> _]]]); split; auto; discriminate.
  - intros (-> & [-> | ->]); split; auto; cbn; auto.
Qed.
Lemma attempts_RD k collect d0 ops : rnd32 k -> Forall (attempt_op d0 k collect) ops -> forall d,
  RD k ("auth_response" :: dirt (asks_endpoint d0 k collect)) d0 d ->
  RD k ("auth_response" :: dirt (asks_endpoint d0 k collect)) d0 (snd (crun d ops)).
Proof.
  intros Hk F. induction F as [|o ops A F IH]; intros d R; [exact R|]. cbn [crun].
  assert (R' : RD k ("auth_response" :: dirt (asks_endpoint d0 k collect)) d0 (snd (cstep d o))).
  { apply RD_one; [exact Hk|exact R|eapply attempt_own; eauto|].
    destruct o; cbn in A; try contradiction.
    - destruct A as (-> & [-> |[-> |[-> A]]]); try reflexivity. apply asks_spec in A. now rewrite A.
    - destruct A as (-> & [-> | ->]); discriminate. }
  specialize (IH _ R'). destruct (cstep d o) as [x d1]. cbn [snd] in *. destruct (crun d1 ops). exact IH.
Qed.

Section Attempts.
  Variable c00 : ctx.
  Variable k : string.
  Hypothesis Hk : rnd32 k.
  Local Notation writes := (P_Trace.writes rnd32 c00).
  Local Notation good := (P_Trace.good rnd32 c00).
  Local Notation writes_at := (P_Trace.writes_at rnd32).
  Lemma w_finish (P : op -> Prop) W cl m t : (forall o, userinfo_op k o -> P o) -> (forall v, P (Bind "subject id" v k)) -> (forall v, P (Bind "session id" v k)) ->
    writes P (finish W cl m k t) P_Trace.any.
  Proof.
    intros P1 P2 P3. unfold finish. eapply w_bind with (Q := P_Trace.any); [apply rnd32_family|..].
    { destruct (_ && _).
      - destruct (t_access t); try apply w_raise. eapply w_bind with (Q := P_Trace.any); [apply rnd32_family|..].
        + eapply w_weaken; [apply w_user_info; auto using rnd32_family, rnd32_no_dict|]. exact P1.
        + intros r _. now apply w_ret.
      - destruct (t_id t) as [| | | | |[|? ?]]; now apply w_ret. }
    intros info _. eapply w_bind with (Q := P_Trace.any); [apply rnd32_family|..]; [|intros _ _; now apply w_ret]. unfold bind_subject.
    assert (B1 : forall dd, writes P (s <- lift (dict_get "sub" dd) ;; bind_value "subject id" s k) P_Trace.any).
    { intros dd. eapply w_bind with (Q := P_Trace.any); [apply rnd32_family|..]; [apply w_lift; intros; exact I|]. intros v _. apply w_bind_value; auto using rnd32_family, rnd32_no_dict, in_sub. }
    destruct (t_id t) as [| | | | |[|kv r]]; try (now apply B1).
    eapply w_bind with (Q := P_Trace.any); [apply rnd32_family|..]; [now apply w_any_pure|]. intros c0 _.
    eapply w_bind with (Q := P_Trace.any); [apply rnd32_family|..]; [|intros _ _; now apply B1].
    destruct c0; [|now apply w_ret]. destruct (dget "sid" (kv :: r)); [|now apply w_ret]. apply w_bind_value; auto using rnd32_family, rnd32_no_dict, in_sid.
  Qed.
  Lemma front_at collect d W iss resp : tame W -> state_of resp = Some k ->
    writes (attempt_op d k collect) (finalize_auth (e_vrf W "authorization") (e_now W) iss resp) P_Trace.any.
  Proof.
    intros T S. eapply w_post; [|intros; exact I]. eapply w_weaken; [apply w_finalize_auth; auto using rnd32_family, rnd32_no_dict|].
    intros o (s & Hs & (c1 & m0 & m & c2 & _ & E0 & E1 & _ & Es) & (mm & _ & ->)).
    assert (state_of resp = Some s) by (eapply state_of_parsed; eauto). assert (s = k) by congruence. subst s. cbn. auto.
  Qed.
  Lemma wa_finalize W cl iss resp collect c : tame W -> state_of resp = Some k -> good c ->
    writes_at (attempt_op (sdb c) k collect) (finalize W cl iss resp collect) P_Trace.any c.
  Proof.
    intros T S C. unfold finalize. eapply wa_bind with (Q := P_Trace.any); [apply rnd32_family|exact C|now apply (front_at collect (sdb c) W iss resp T S)|].
    intros m c1 E _ C1. destruct (is_error_message m) eqn:Ee.
    { eapply w_bind with (Q := P_Trace.any); [apply rnd32_family|apply w_lift; intros; exact I| |exact C1]. intros s _.
      eapply w_bind with (Q := P_Trace.any); [apply rnd32_family|apply w_lift; intros; exact I|]. intros e _. now apply w_ret. }
    destruct (dget "state" m) as [[| | |st| |]|] eqn:Est; try (eapply w_raise; exact C1).
    assert (st = k). { assert (state_of resp = Some st) by (eapply state_of_final; eauto). congruence. } subst st.
    assert (EP : asks_endpoint (sdb c1) k collect = asks_endpoint (sdb c) k collect).
    { pose proof (finalize_auth_spec _ _ _ _ _ _ _ E) as F. cbn in F. destruct F as [[F _]|[_ (s & F1 & _ & _ & _ & F5 & _)]]; [congruence|].
      rewrite Est in F1. injection F1 as <-. unfold asks_endpoint. now rewrite F5 by discriminate. }
    apply (wa_bind rnd32 rnd32_family c00 (attempt_op (sdb c) k collect) (get_access_and_id_token W cl m k collect) (finish W cl m k) P_Trace.any P_Trace.any c1 C1).
    - destruct (asks_endpoint (sdb c) k collect) eqn:EA.
      + revert c1 C1 E EP. intros c1 C1 _ _. revert c1 C1.
        match goal with |- forall c1, good c1 -> writes_at ?P ?f _ c1 => change (writes P f P_Trace.any) end.
        unfold get_access_and_id_token. eapply w_bind with (Q := P_Trace.any); [apply rnd32_family|now apply w_any_pure|]. intros rq _.
        eapply w_bind with (Q := P_Trace.any); [apply rnd32_family|apply w_lift; intros; exact I|]. intros rt _.
        eapply w_bind with (Q := P_Trace.any); [apply rnd32_family|apply w_lift; intros; exact I|]. intros idt _.
        assert (TE : writes (attempt_op (sdb c) k collect) (tokens_from_endpoint W cl k) P_Trace.any).
        { apply w_endpoint; auto using rnd32_family, rnd32_no_dict. intros o [(mm & _ & ->)|(v & _ & ->)]; cbn; [|auto]. split; [reflexivity|].
          right; right. split; [reflexivity|]. now apply asks_spec. }
        destruct (one_of rt _).
        * eapply w_bind with (Q := P_Trace.any); [apply rnd32_family|apply w_lift; intros; exact I|]. intros a _. destruct collect; [exact TE|now apply w_ret].
        * destruct (one_of rt _); [exact TE|now apply w_ret].
      + apply wa_pure; [apply access_no_ep; congruence|intros; exact I].
    - intros t c2 _ _ C2. apply w_finish; [| | |exact C2]; cbn; auto. intros o (cc & mm & ->). cbn. auto.
  Qed.
  Lemma attempt_writes cl collect o c : attempt k collect o -> good c ->
    run_call cl o c = set_db (sdb (run_call cl o c)) c /\
    exists ops, Forall (attempt_op (sdb c) k collect) ops /\ sdb (run_call cl o c) = snd (crun (sdb c) ops).
  Proof.
    intros A C.
    assert (G : forall T (m : M T), writes_at (attempt_op (sdb c) k collect) m P_Trace.any c ->
      snd (m c) = set_db (sdb (snd (m c))) c /\ exists ops, Forall (attempt_op (sdb c) k collect) ops /\ sdb (snd (m c)) = snd (crun (sdb c) ops)).
    { intros T m H. destruct (H (fst (m c)) (snd (m c)) (surjective_pairing _)) as (H1 & (ops & H2 & H3) & _). split; [exact H1|]. exists ops. split; [|exact H3].
      eapply Forall_impl; [|exact H2]. intros o0 X. exact (proj2 X). }
    destruct o as [|W iss resp b|W iss resp| | |W st tok| |]; cbn in A; try contradiction; cbn [run_call]; apply G.
    - destruct A as (S & -> & T). now apply wa_finalize.
    - destruct A as (S & T). now apply front_at.
    - destruct A as (-> & T). eapply w_weaken; [apply w_user_info; auto using rnd32_family, rnd32_no_dict| |exact C]. intros o (cc & mm & ->). cbn. auto.
  Qed.
End Attempts.

(** ** the theorems *)
Lemma agree_same {A} (f : A -> answer) (r1 r2 : res A) : agree true r1 r2 -> same_outcome (rmap f r1) (rmap f r2).
Proof. intros [->|(_ & e1 & e2 & -> & ->)]; [now left|right; cbn; eauto]. Qed.
Lemma again k cl W iss resp collect c c' : rnd32 k -> tame W -> state_of resp = Some k -> c' = set_db (sdb c') c ->
  RD k ("auth_response" :: dirt (asks_endpoint (sdb c) k collect)) (sdb c) (sdb c') -> finalize_again cl W iss resp collect k c c'.
Proof.
  intros Hk T S E R. destruct (sim_retry k cl W iss resp collect c c c' Hk T S) as [A B].
  { split; [exact R|]. split; [symmetry; apply set_db_same|exact E]. }
  split; [now apply agree_same|]. intros info st tok idt ss H. cbn [run_call answer_of] in *.
  apply all_reads with (dirty := ["user_info"]); [exact Hk| |].
  - intros t. unfold clean. rewrite negb_true_iff. rewrite <- not_true_iff_false, mem_str_In. cbn. intuition congruence.
  - apply (B info st tok idt ss). destruct (fst (finalize W cl iss resp collect c)); [|discriminate]. cbn in H. injection H as ->. reflexivity.
Qed.
Lemma stopped_again cl os c0 k i collect ops W iss resp : plain_client cl -> Forall call_ok os -> sdb c0 = [] -> rnd32 k ->
  let c := run_calls cl os c0 in
  get_iss (sdb c) k = Ok i -> Forall (attempt_op (sdb c) k collect) ops -> tame W -> state_of resp = Some k ->
  finalize_again cl W iss resp collect k c (stopped_after c ops).
Proof.
  intros PC OK E Hk c I F T S. apply again; auto.
  unfold stopped_after. rewrite sdb_set. apply attempts_RD; auto. eapply RD_refl. exact (reach_sound cl os c0 k i PC OK E I).
Qed.
Lemma attempts_run cl k collect c0 d0 : rnd32 k -> forall os c, Forall (attempt k collect) os ->
  c = set_db (sdb c) c0 -> RD k ("auth_response" :: dirt (asks_endpoint d0 k collect)) d0 (sdb c) ->
  run_calls cl os c = set_db (sdb (run_calls cl os c)) c0 /\
  RD k ("auth_response" :: dirt (asks_endpoint d0 k collect)) d0 (sdb (run_calls cl os c)).
Proof.
  intros Hk. induction os as [|o os IH]; intros c F E R; [auto|]. inversion F; subst.
  assert (G : P_Trace.good rnd32 c0 c) by (split; [destruct R as ((i & _ & (CL & _)) & _); exact CL|exact E]).
  destruct (attempt_writes c0 k Hk cl collect o c H1 G) as (W1 & ops & F2 & W2).
  assert (AR : forall cc, get_item (sdb c) cc "auth_request" k = get_item d0 cc "auth_request" k).
  { intros cc. symmetry. destruct R as (_ & R & _). apply R. destruct (asks_endpoint d0 k collect); reflexivity. }
  change (run_calls cl (o :: os) c) with (run_calls cl os (run_call cl o c)). apply IH; [assumption|rewrite W1, E, set_db_set, sdb_set; reflexivity|].
  rewrite W2. apply attempts_RD; auto. eapply Forall_impl; [|exact F2]. intros x. unfold attempt_op, from_endpoint. destruct x; auto. now rewrite AR.
Qed.
Lemma attempts_again cl os c0 k i collect os' W iss resp : plain_client cl -> Forall call_ok os -> sdb c0 = [] -> rnd32 k ->
  let c := run_calls cl os c0 in
  get_iss (sdb c) k = Ok i -> Forall (attempt k collect) os' -> tame W -> state_of resp = Some k ->
  finalize_again cl W iss resp collect k c (run_calls cl os' c).
Proof.
  intros PC OK E Hk c I F T S.
  destruct (attempts_run cl k collect c (sdb c) Hk os' c F) as [X R]; [symmetry; apply set_db_same|eapply RD_refl; exact (reach_sound cl os c0 k i PC OK E I)|].
  apply again; auto.
Qed.
Lemma crash_again cl os c0 k i collect o : plain_client cl -> Forall call_ok os -> sdb c0 = [] -> rnd32 k ->
  let c := run_calls cl os c0 in
  get_iss (sdb c) k = Ok i -> attempt k collect o ->
  exists ops, run_call cl o c = stopped_after c ops /\
    forall n W iss resp, tame W -> state_of resp = Some k -> finalize_again cl W iss resp collect k c (stopped_after c (firstn n ops)).
Proof.
  intros PC OK E Hk c I A.
  assert (G : P_Trace.good rnd32 c c) by (split; [now apply closed_reach|symmetry; apply set_db_same]).
  destruct (attempt_writes c k Hk cl collect o c A G) as (W1 & ops & F & W2). exists ops.
  split; [unfold stopped_after; rewrite W1, W2; reflexivity|]. intros n W iss resp T S.
  eapply stopped_again; eauto. rewrite <- (firstn_skipn n ops) in F. now apply Forall_app in F.
Qed.
