(** Proofs about the session store *)
From Verif Require Import Base BaseP Json JsonP Msg M_State S_State.

Lemma kinds_pattern x : In x kinds -> key_pattern x = Some (wrap x).
Proof. unfold kinds. simpl. intros [<-|[<-|[<-|[<-|[]]]]]; reflexivity. Qed.
Lemma index_key_ok x v : In x kinds -> index_key x v = Ok (idx x v).
Proof. intros H. unfold index_key, idx. now rewrite (kinds_pattern x H). Qed.
Lemma pattern_kinds x w : key_pattern x = Some w -> In x kinds.
Proof.
  unfold key_pattern, kinds. cbn [dget].
  repeat match goal with |- context [?a =?s x] => destruct (String.eqb_spec a x); [subst; simpl; auto 6|] end.
  discriminate.
Qed.

Lemma fmt_inj w v v' : fmt w v = fmt w v' -> v = v'.
Proof. unfold fmt. intros H. apply sapp_inj_l in H. now apply sapp_inj_r in H. Qed.

Lemma idx_inj x v x' v' : In x kinds -> In x' kinds -> idx x v = idx x' v' -> x = x' /\ v = v'.
Proof.
  unfold kinds. simpl. intros H H' E.
  destruct H as [<-|[<-|[<-|[<-|[]]]]], H' as [<-|[<-|[<-|[<-|[]]]]];
    try (split; [reflexivity|]; now apply fmt_inj in E); discriminate E.
Qed.
Lemma idx_ref x v k : In x kinds -> idx x v <> ref_key k.
Proof. unfold kinds. simpl. intros [<-|[<-|[<-|[<-|[]]]]] E; discriminate E. Qed.
Lemma ref_inj k k' : ref_key k = ref_key k' -> k = k'.
Proof. apply fmt_inj. Qed.

Lemma rnd32_family : key_family rnd32.
Proof.
  split; [|split; [|split]].
  - intros k [H _] ->. discriminate.
  - intros k x v [_ H] Hx ->. unfold idx, fmt in H. rewrite all_chars_app in H.
    unfold kinds in Hx. simpl in Hx. destruct Hx as [<-|[<-|[<-|[<-|[]]]]]; discriminate H.
  - intros k k' [H _] [H' _] ->. unfold ref_key, fmt in H. rewrite !slength_app in H. simpl in H. lia.
  - intros k [_ H]. destruct (starts_with "__" k) eqn:E; [|reflexivity].
    apply starts_with_inv in E. rewrite E in H. discriminate.
Qed.
Lemma fmt_shape w v : starts_with w (fmt w v) && ends_with w (fmt w v) = true.
Proof.
  unfold fmt. rewrite starts_with_app. simpl. apply ends_with_iff. exists (w ++ v)%string.
  now rewrite sapp_assoc.
Qed.
Lemma plain_family : key_family (fun k => plain_key k = true).
Proof.
  split; [|split; [|split]].
  - intros k H ->. discriminate.
  - intros k x v H Hx ->. unfold plain_key in H. rewrite !andb_true_iff, !negb_true_iff in H.
    destruct H as [[_ H] _]. unfold idx in H.
    assert (E : existsb (fun w => starts_with w (fmt (wrap x) v) && ends_with w (fmt (wrap x) v)) ["__"; "::"; ".."; "=="] = true).
    { apply existsb_exists. exists (wrap x). split; [|apply fmt_shape].
      unfold kinds in Hx. simpl in Hx. destruct Hx as [<-|[<-|[<-|[<-|[]]]]]; simpl; auto. }
    congruence.
  - intros k k' H _ ->. unfold plain_key in H. rewrite !andb_true_iff, !negb_true_iff in H.
    destruct H as [_ H]. unfold ref_key in H. rewrite fmt_shape in H. discriminate.
  - intros k H. unfold plain_key in H. rewrite !andb_true_iff, !negb_true_iff in H.
    destruct H as [[_ H] _]. cbn [existsb] in H. apply orb_false_iff in H. apply H.
Qed.

(** ** the State message round trip *)
Definition wf_state (s : msg) : Prop :=
  NoDup (dkeys s) /\
  Forall (fun kv => mem_str (fst kv) state_json_params = true \/ skipped (snd kv) = false) s.

Lemma dset_fresh {A} k (v : A) d : ~ In k (dkeys d) -> dset k v d = d ++ [(k, v)].
Proof.
  unfold dkeys. induction d as [|[k' v'] r IH]; simpl; [reflexivity|]. intros H.
  rewrite eqb_neq by (intros ->; apply H; auto). rewrite IH by (intros C; apply H; auto). reflexivity.
Qed.
Lemma skipped_dumps v : skipped (VStr (json_dumps v)) = false.
Proof. destruct (json_dumps_nonempty v) as (c & r & ->). reflexivity. Qed.

Lemma state_load_dump s : forall m, NoDup (dkeys s) ->
  Forall (fun kv => mem_str (fst kv) state_json_params = true \/ skipped (snd kv) = false) s ->
  (forall k, In k (dkeys s) -> ~ In k (dkeys m)) ->
  msg_from_dict cState (msg_to_dict cState s) m = Ok (m ++ s).
Proof.
  induction s as [|[k v] s IH]; intros m Hn Hf Hm; cbn [msg_to_dict map msg_from_dict].
  - now rewrite app_nil_r.
  - inversion Hn; subst. inversion Hf; subst. cbn [fst snd] in *.
    assert (Hk : ~ In k (dkeys m)) by (apply Hm; now left).
    assert (Step : forall w, msg_from_dict cState (map (ser_param cState) s) (dset k v m) = Ok (m ++ (k, v) :: s) \/ w = true).
    { intros w. left. rewrite dset_fresh by assumption.
      fold (msg_to_dict cState s). rewrite IH; auto.
      - now rewrite <- app_assoc.
      - intros k2 Hk2. unfold dkeys. rewrite map_app. simpl. rewrite in_app_iff. intros [C|[C|[]]].
        + revert C. apply Hm. now right.
        + subst. contradiction. }
    destruct (Step false) as [St|]; [|discriminate]. clear Step.
    unfold ser_param at 1. cbn [c_json cState c_sp].
    destruct (mem_str k state_json_params) eqn:E.
    + rewrite skipped_dumps. unfold msg_set. cbn [c_json cState]. rewrite E, json_roundtrip. exact St.
    + destruct H3 as [H3|H3]; [congruence|]. simpl (mem_str k []). cbn iota. rewrite H3.
      unfold msg_set. cbn [c_json c_sp cState]. rewrite E. exact St.
Qed.
Lemma state_roundtrip s : wf_state s -> msg_from_json cState (msg_to_json cState s) = Ok s.
Proof.
  intros [H1 H2]. unfold msg_from_json, msg_to_json. rewrite json_roundtrip.
  rewrite state_load_dump; auto. 
Qed.

(** ** abstraction relation *)
Definition item_val (t : string) (i : dict val) : val :=
  if mem_str t state_json_params then VDict i else VStr (json_dumps (VDict i)).
Definition sess_rel (m : msg) (s : asess) : Prop :=
  wf_state m /\ dget "iss" m = option_map VStr (a_iss s) /\
  forall t, t <> "iss" -> dget t m = option_map (item_val t) (a_items s t).

Definition refs_val (r : dict string) : val := VDict (map (fun kv => (fst kv, VStr (snd kv))) r).

Section Refine.
  Variable K : string -> Prop.
  Hypothesis HK : key_family K.

  Definition rel (d : db) (a : astate) : Prop :=
    (forall k, K k -> match A_sess a k with
                      | None => dget k d = None
                      | Some s => exists m, dget k d = Some (msg_to_json cState m) /\ sess_rel m s
                      end) /\
    (forall k, K k -> dget (ref_key k) d =
        match A_refs a k with [] => None | r => Some (json_dumps (refs_val r)) end) /\
    (forall k, K k -> Forall (fun xv => In (fst xv) kinds) (A_refs a k)) /\
    (forall x v, In x kinds -> dget (idx x v) d = A_idx a x v).

  Lemma rel_init : rel [] ainit.
  Proof. repeat split; simpl; auto. Qed.

  Lemma msg_to_json_ne m : (msg_to_json cState m =?s "") = false.
  Proof. unfold msg_to_json. destruct (json_dumps_nonempty (VDict (msg_to_dict cState m))) as (c & r & ->). reflexivity. Qed.

  Lemma get_state_rel d a k : rel d a -> K k ->
    match A_sess a k with
    | None => get_state d k = Err (KeyError k)
    | Some s => exists m, get_state d k = Ok m /\ sess_rel m s
    end.
  Proof.
    intros [R _] Hk. specialize (R k Hk). unfold get_state. destruct (A_sess a k) as [s|].
    - destruct R as (m & -> & Hm). exists m. rewrite msg_to_json_ne, state_roundtrip by apply Hm. auto.
    - now rewrite R.
  Qed.

  Lemma K_ref k k' : K k -> K k' -> ref_key k <> k'.
  Proof. intros H H' E. destruct HK as (_ & _ & H3 & _). exact (H3 k' k H' H (eq_sym E)). Qed.
  Lemma K_idx k x v : K k -> In x kinds -> idx x v <> k.
  Proof. intros H H' E. destruct HK as (_ & H2 & _). exact (H2 k x v H H' (eq_sym E)). Qed.

  Ltac neq :=
    first [ assumption
          | now apply K_ref | now apply K_idx | now apply idx_ref
          | apply not_eq_sym; first [assumption | now apply K_ref | now apply K_idx | now apply idx_ref] ].

  (** writing the text of a session *)
  Lemma rel_set_sess d a k m s : rel d a -> K k -> sess_rel m s ->
    rel (dset k (msg_to_json cState m) d)
        {| A_sess := upd (A_sess a) k (Some s); A_refs := A_refs a; A_idx := A_idx a |}.
  Proof.
    intros (R1 & R2 & R3 & R4) Hk Hs. repeat split; cbn [A_sess A_refs A_idx].
    - intros k' Hk'. unfold upd. destruct (String.eqb_spec k k').
      + subst. exists m. rewrite dget_dset_eq. auto.
      + rewrite dget_dset_neq by assumption. now apply R1.
    - intros k' Hk'. rewrite dget_dset_neq by neq. now apply R2.
    - exact R3.
    - intros x v Hx. rewrite dget_dset_neq by neq. now apply R4.
  Qed.


  Lemma create_rel d a rnd iss key : rel d a -> op_ok K (Create rnd iss key) ->
    fst (create_state rnd iss key d) = Ok (created_key rnd key) /\
    rel (snd (create_state rnd iss key d)) (snd (astep a (Create rnd iss key))).
  Proof.
    intros R Hk. cbn [op_ok] in Hk.
    assert (G : exists m, msg_new cState [("iss", VStr iss)] = Ok m /\
              sess_rel m {| a_iss := if iss =?s "" then None else Some iss; a_items := fun _ => None |}).
    { unfold msg_new. cbn [msg_from_dict cState c_default].
      destruct (String.eqb_spec iss "").
      - subst. exists []. split; [reflexivity|]. repeat split; simpl; auto; constructor.
      - exists [("iss", VStr iss)]. assert (E : skipped (VStr iss) = false) by now destruct iss.
        rewrite E. split; [reflexivity|]. repeat split; simpl; auto.
        + repeat constructor. easy.
        + intros t Ht. destruct (String.eqb_spec "iss" t); [congruence|reflexivity]. }
    destruct G as (m & Em & Hm).
    unfold create_state. rewrite Em. cbn [astep snd]. unfold created_key in *.
    destruct (key =?s ""); cbn [fst snd].
    - split; [reflexivity|]. now apply rel_set_sess.
    - destruct HK as (_ & _ & _ & H4). rewrite (H4 key Hk). cbn [fst snd].
      split; [reflexivity|]. now apply rel_set_sess.
  Qed.

  Lemma wf_dset m k v : wf_state m -> (mem_str k state_json_params = true \/ skipped v = false) ->
    wf_state (dset k v m).
  Proof.
    intros [H1 H2] Hv. split; [now apply NoDup_dset|].
    clear H1. induction H2 as [|[k' v'] r Hx Hr IH]; cbn [dset]; [constructor; [exact Hv|constructor]|].
    destruct (String.eqb_spec k' k); [subst; constructor; auto|constructor; auto].
  Qed.

  Lemma store_rel d a c m t k : rel d a -> op_ok K (Store c m t k) ->
    fst (store_item (IMsg c m) t k d) = Ok tt /\
    rel (snd (store_item (IMsg c m) t k d)) (snd (astep a (Store c m t k))).
  Proof.
    intros R [Hk Ht]. unfold store_item.
    set (s := match A_sess a k with Some s => s | None => empty_sess end).
    assert (G : exists st, match get_state d k with
            | Ok s => Ok s | Err (KeyError _) => Ok [] | Err e => Err e end = Ok st /\ sess_rel st s).
    { pose proof (get_state_rel d a k R Hk) as G. subst s. destruct (A_sess a k) as [s|].
      - destruct G as (m0 & -> & Hm). eauto.
      - rewrite G. exists []. split; [reflexivity|]. repeat split; simpl; auto; constructor. }
    destruct G as (st & -> & (Hw & Hi & Hit)).
    assert (E : exists st', msg_set cState t (VStr (msg_to_json c m)) st = Ok st' /\
               st' = dset t (item_val t (msg_to_dict c m)) st).
    { unfold msg_set, item_val. cbn [c_json cState c_sp]. destruct (mem_str t state_json_params).
      - unfold msg_to_json. rewrite json_roundtrip. eauto.
      - simpl. eauto. }
    destruct E as (st' & -> & ->). cbn [fst snd astep]. split; [reflexivity|].
    fold s. apply rel_set_sess; [assumption..|]. repeat split; cbn [a_iss a_items].
    - apply wf_dset; [assumption|]. unfold item_val. destruct (mem_str t state_json_params); [now left|].
      right. apply skipped_dumps.
    - apply wf_dset; [assumption|]. unfold item_val. destruct (mem_str t state_json_params); [now left|].
      right. apply skipped_dumps.
    - now rewrite dget_dset_neq.
    - intros t' Ht'. rewrite dget_dset. unfold upd. destruct (String.eqb_spec t t'); [now subst|auto].
  Qed.

  Lemma refs_val_set x v r :
    match refs_val r with VDict l => VDict (dset x (VStr v) l) | w => w end = refs_val (dset x v r).
  Proof.
    unfold refs_val. f_equal. induction r as [|[k w] r IH]; simpl; [reflexivity|].
    destruct (k =?s x); simpl; [reflexivity|]. now rewrite IH.
  Qed.
  Lemma dset_nonnil {A} k (v : A) d : exists kv r, dset k v d = kv :: r.
  Proof. destruct d as [|[k' v'] r]; simpl; [eauto|]. destruct (k' =?s k); eauto. Qed.

  Lemma bind_rel d a x v k : rel d a -> op_ok K (Bind x v k) ->
    fst (store_x2state v k x d) = Ok tt /\
    rel (snd (store_x2state v k x d)) (snd (astep a (Bind x v k))).
  Proof.
    intros (R1 & R2 & R3 & R4) [Hk Hx]. unfold store_x2state. rewrite (index_key_ok x v Hx).
    rewrite dget_dset_neq by neq. rewrite (R2 k Hk).
    assert (G : forall txt, txt = json_dumps (refs_val (dset x v (A_refs a k))) ->
            rel (dset (ref_key k) txt (dset (idx x v) k d)) (snd (astep a (Bind x v k)))).
    { intros txt ->. repeat split; cbn [astep snd A_sess A_refs A_idx].
      - intros k' Hk'. rewrite !dget_dset_neq by neq. now apply R1.
      - intros k' Hk'. unfold upd. destruct (String.eqb_spec k k').
        + subst. rewrite dget_dset_eq. destruct (dset_nonnil x v (A_refs a k')) as (kv & r & ->). reflexivity.
        + rewrite dget_dset_neq by (intros E; apply ref_inj in E; contradiction).
          rewrite dget_dset_neq by neq. now apply R2.
      - intros k' Hk'. unfold upd. destruct (String.eqb_spec k k'); [subst|now apply R3].
        specialize (R3 k' Hk'). induction R3 as [|[x0 v0] r H0 Hr IH]; cbn [dset]; [constructor; [exact Hx|constructor]|].
        destruct (String.eqb_spec x0 x); constructor; auto.
      - intros x' v' Hx'. rewrite dget_dset_neq by neq. unfold upd2. rewrite dget_dset.
        destruct (String.eqb_spec (idx x v) (idx x' v')) as [E|E].
        + apply idx_inj in E as [-> ->]; [|assumption..]. now rewrite !eqb_refl.
        + replace ((x =?s x') && (v =?s v')) with false; [now apply R4|].
          symmetry. apply not_true_is_false. rewrite andb_true_iff, !String.eqb_eq. intros [-> ->]. congruence. }
    destruct (A_refs a k) as [|r0 rs] eqn:E; cbn [fst snd].
    - split; [reflexivity|]. apply G. reflexivity.
    - rewrite json_roundtrip. unfold refs_val at 1. unfold refs_val at 1. cbn [fst snd]. split; [reflexivity|]. apply G.
      f_equal. exact (refs_val_set x v (r0 :: rs)).
  Qed.

  (** deletion of index entries *)
  Lemma remove_refs_rel r : forall d a, rel d a -> Forall (fun xv => In (fst xv) kinds) r ->
    let (o, i) := drop_refs r (A_idx a) in
    (match o with
     | ODone => fst (remove_refs (map (fun kv => (fst kv, VStr (snd kv))) r) d) = Ok tt
     | OKeyError => exists e, fst (remove_refs (map (fun kv => (fst kv, VStr (snd kv))) r) d) = Err (KeyError e)
     | _ => False
     end) /\
    rel (snd (remove_refs (map (fun kv => (fst kv, VStr (snd kv))) r) d))
        {| A_sess := A_sess a; A_refs := A_refs a; A_idx := i |}.
  Proof.
    induction r as [|[x v] r IH]; intros d a R Hf; cbn [drop_refs map remove_refs fst snd].
    - split; [reflexivity|]. destruct a; exact R.
    - inversion Hf; subst. cbn [fst] in *. rewrite (index_key_ok x v) by assumption.
      pose proof R as (R1 & R2 & R3 & R4). unfold dhas. rewrite (R4 x v H1).
      destruct (A_idx a x v) eqn:Ei; cbn [fst snd].
      + set (a' := {| A_sess := A_sess a; A_refs := A_refs a; A_idx := upd2 (A_idx a) x v None |}).
        assert (R' : rel (ddel (idx x v) d) a').
        { repeat split; subst a'; cbn [A_sess A_refs A_idx].
          - intros k Hk. rewrite dget_ddel_neq by neq. now apply R1.
          - intros k Hk. rewrite dget_ddel_neq by neq. now apply R2.
          - exact R3.
          - intros x' v' Hx'. unfold upd2. rewrite dget_ddel.
            destruct (String.eqb_spec (idx x v) (idx x' v')) as [E|E].
            + apply idx_inj in E as [-> ->]; [|assumption..]. now rewrite !eqb_refl.
            + replace ((x =?s x') && (v =?s v')) with false; [now apply R4|].
              symmetry. apply not_true_is_false. rewrite andb_true_iff, !String.eqb_eq. intros [-> ->]. congruence. }
        specialize (IH _ _ R' H2). subst a'. cbn [A_sess A_refs A_idx] in IH. exact IH.
      + split; [eauto|]. destruct a; exact R.
  Qed.

  Lemma remove_rel d a k : rel d a -> K k ->
    out_agrees (Remove k) (fst (cstep d (Remove k))) (fst (astep a (Remove k))) /\
    rel (snd (cstep d (Remove k))) (snd (astep a (Remove k))).
  Proof.
    intros R Hk. pose proof R as (R1 & R2 & R3 & R4).
    cbn [cstep astep]. unfold remove_state, dhas. pose proof (R1 k Hk) as Rk.
    destruct (A_sess a k) as [s|] eqn:Es.
    - destruct Rk as (m & Em & _). rewrite Em. rewrite dget_ddel_neq by neq. rewrite (R2 k Hk).
      set (a' := {| A_sess := upd (A_sess a) k None; A_refs := A_refs a; A_idx := A_idx a |}).
      assert (R' : rel (ddel k d) a').
      { repeat split; subst a'; cbn [A_sess A_refs A_idx].
        - intros k' Hk'. unfold upd. rewrite dget_ddel. destruct (k =?s k') eqn:E; [reflexivity|]. now apply R1.
        - intros k' Hk'. rewrite dget_ddel_neq by neq. now apply R2.
        - exact R3.
        - intros x v Hx. rewrite dget_ddel_neq by neq. now apply R4. }
      destruct (A_refs a k) as [|r0 rs] eqn:Er.
      + cbn [fst snd out_agrees]. split; [reflexivity|]. exact R'.
      + rewrite json_roundtrip. unfold refs_val.
        assert (F : Forall (fun xv => In (fst xv) kinds) (r0 :: rs)) by (rewrite <- Er; now apply R3).
        pose proof (remove_refs_rel (r0 :: rs) _ _ R' F) as G. subst a'. cbn [A_idx A_sess A_refs] in G.
        destruct (drop_refs (r0 :: rs) (A_idx a)) as [o i].
        destruct (remove_refs (map _ (r0 :: rs)) (ddel k d)) as [rr d'].
        cbn [fst snd] in *. destruct G as [G1 G2]. split; [|exact G2].
        destruct o; cbn [out_agrees]; try contradiction.
        * now rewrite G1.
        * destruct G1 as [e ->]. eauto.
    - rewrite Rk. cbn [fst snd out_agrees]. split; [eauto|exact R].
  Qed.

  Lemma step_rel d a o : rel d a -> op_ok K o ->
    out_agrees o (fst (cstep d o)) (fst (astep a o)) /\ rel (snd (cstep d o)) (snd (astep a o)).
  Proof.
    intros R Ho. destruct o as [rnd iss key|c m t k|x v k|k].
    - destruct (create_rel d a rnd iss key R Ho) as [H1 H2]. split; [|exact H2]. cbn. exact H1.
    - destruct (store_rel d a c m t k R Ho) as [H1 H2]. cbn [cstep].
      destruct (store_item (IMsg c m) t k d) as [r d']. cbn [fst snd] in *. subst r. split; [reflexivity|exact H2].
    - destruct (bind_rel d a x v k R Ho) as [H1 H2]. cbn [cstep].
      destruct (store_x2state v k x d) as [r d']. cbn [fst snd] in *. subst r. split; [reflexivity|exact H2].
    - apply remove_rel; assumption.
  Qed.

  Lemma run_rel ops : forall d a, rel d a -> Forall (op_ok K) ops ->
    Forall2 (fun o rx => out_agrees o (fst rx) (snd rx)) ops (combine (fst (crun d ops)) (fst (arun a ops))) /\
    rel (snd (crun d ops)) (snd (arun a ops)).
  Proof.
    induction ops as [|o ops IH]; intros d a R Ho; simpl.
    - split; [constructor|exact R].
    - inversion Ho; subst. destruct (step_rel d a o R H1) as [G1 G2].
      destruct (cstep d o) as [r d1], (astep a o) as [x a1]. cbn [fst snd] in *.
      destruct (IH d1 a1 G2 H2) as [I1 I2].
      destruct (crun d1 ops) as [rs d2], (arun a1 ops) as [xs a2]. cbn [fst snd combine] in *.
      split; [constructor; auto|exact I2].
  Qed.

  (** observations *)
  Lemma get_item_rel d a c t k : rel d a -> K k -> t <> "iss" ->
    get_item d c t k = match A_sess a k with
                       | None => Err (KeyError k)
                       | Some s => match a_items s t with
                                   | None => Err (KeyError t)
                                   | Some i => msg_new c i
                                   end
                       end.
  Proof.
    intros R Hk Ht. unfold get_item. pose proof (get_state_rel d a k R Hk) as G.
    destruct (A_sess a k) as [s|]; [|now rewrite G].
    destruct G as (m & -> & _ & _ & Hit). rewrite (Hit t Ht). destruct (a_items s t) as [i|]; simpl; [|reflexivity].
    unfold item_val. destruct (mem_str t state_json_params); [reflexivity|].
    unfold msg_from_json. now rewrite json_roundtrip.
  Qed.
  Lemma get_iss_rel d a k : rel d a -> K k ->
    match A_sess a k with
    | Some {| a_iss := Some i |} => get_iss d k = Ok (VStr i)
    | _ => exists e, get_iss d k = Err (KeyError e)
    end.
  Proof.
    intros R Hk. unfold get_iss. pose proof (get_state_rel d a k R Hk) as G.
    destruct (A_sess a k) as [[i its]|]; [|rewrite G; eauto].
    destruct G as (m & -> & _ & Hi & _). cbn [a_iss] in Hi. destruct i as [i|]; simpl in Hi.
    - unfold dict_get. rewrite Hi. destruct m; [discriminate|reflexivity].
    - unfold dict_get. rewrite Hi. destruct m; eauto.
  Qed.
  Lemma get_by_x_rel d a x v : rel d a -> In x kinds ->
    (forall s, A_idx a x v = Some s -> s <> "") ->
    get_state_by_x d v x = match A_idx a x v with Some s => Ok s | None => Err (KeyError v) end.
  Proof.
    intros (_ & _ & _ & R4) Hx Hne. unfold get_state_by_x. rewrite (index_key_ok x v Hx), (R4 x v Hx).
    destruct (A_idx a x v) as [s|]; [|reflexivity]. rewrite eqb_neq; [reflexivity|]. now apply Hne.
  Qed.
End Refine.

(** ** Direct readings *)
Lemma arun_snoc ops : forall a o, snd (arun a (ops ++ [o])) = snd (astep (snd (arun a ops)) o).
Proof.
  induction ops as [|p ops IH]; intros a o; simpl.
  - destruct (astep a o); reflexivity.
  - destruct (astep a p) as [x a1]. specialize (IH a1 o).
    destruct (arun a1 (ops ++ [o])), (arun a1 ops). simpl in *. exact IH.
Qed.

Lemma drop_refs_idx refs : forall f x v s, snd (drop_refs refs f) x v = Some s -> f x v = Some s.
Proof.
  induction refs as [|[y w] r IH]; intros f x v s; simpl; [auto|].
  destruct (f y w) eqn:E; simpl; [|auto]. intros H. apply IH in H. unfold upd2 in H.
  destruct ((y =?s x) && (w =?s v)); [discriminate|assumption].
Qed.

Lemma sess_latest ops : forall k,
  match A_sess (snd (arun ainit ops)) k with
  | None => (forall t, latest_item (rev ops) k t = None) /\ latest_iss (rev ops) k = None
  | Some s => (forall t, a_items s t = latest_item (rev ops) k t) /\ a_iss s = latest_iss (rev ops) k
  end.
Proof.
  induction ops as [|o ops IH] using rev_ind; intros k; [simpl; auto|].
  rewrite arun_snoc, rev_app_distr. cbn [rev app]. specialize (IH k).
  set (a := snd (arun ainit ops)) in *. destruct o as [rnd iss key|c m t' k'|x v k'|k']; cbn [astep snd A_sess latest_item latest_iss].
  - unfold upd. destruct (created_key rnd key =?s k); [auto|exact IH].
  - unfold upd. destruct (String.eqb_spec k' k); cbn [andb]; [|exact IH]. subst k'.
    cbn [a_items a_iss]. unfold upd. destruct (A_sess a k) as [s|].
    + destruct IH as [I1 I2]. split; [|exact I2]. intros t. destruct (t' =?s t); auto.
    + destruct IH as [I1 I2]. cbn [empty_sess a_items a_iss]. split; [|auto]. intros t. destruct (t' =?s t); auto.
  - exact IH.
  - destruct (A_sess a k') as [s|] eqn:E.
    + assert (G : A_sess (snd match A_refs a k' with
         | [] => (OTypeError, {| A_sess := upd (A_sess a) k' None; A_refs := A_refs a; A_idx := A_idx a |})
         | _ :: _ => let (o, i) := drop_refs (A_refs a k') (A_idx a) in
                     (o, {| A_sess := upd (A_sess a) k' None; A_refs := A_refs a; A_idx := i |})
         end) k = upd (A_sess a) k' None k).
      { destruct (A_refs a k') as [|r0 rs] eqn:Er; [reflexivity|]. destruct (drop_refs (r0 :: rs) (A_idx a)). reflexivity. }
      destruct (A_refs a k') as [|r0 rs]; [|destruct (drop_refs (r0 :: rs) (A_idx a))]; cbn [snd] in *; rewrite G;
        unfold upd; destruct (String.eqb_spec k' k); auto.
    + cbn [snd]. destruct (String.eqb_spec k' k); [|exact IH]. subst. rewrite E in *. auto.
Qed.

Lemma idx_latest ops : forallb (fun o => negb (is_remove o)) ops = true -> forall x v,
  A_idx (snd (arun ainit ops)) x v = latest_bind (rev ops) x v.
Proof.
  induction ops as [|o ops IH] using rev_ind; intros H x v; [reflexivity|].
  rewrite forallb_app in H. apply andb_true_iff in H as [H1 H2]. simpl in H2. rewrite andb_true_r in H2.
  rewrite arun_snoc, rev_app_distr. cbn [rev app].
  destruct o as [rnd iss key|c m t' k'|x' v' k'|k']; cbn [astep snd A_idx latest_bind]; try discriminate; auto.
  unfold upd2. destruct ((x' =?s x) && (v' =?s v)); auto.
Qed.
Lemma latest_bind_K K h x v k : Forall (op_ok K) h -> latest_bind h x v = Some k -> K k.
Proof.
  induction h as [|o h IH]; simpl; [discriminate|]. intros H E. inversion H; subst.
  destruct o; auto. destruct ((x0 =?s x) && (v0 =?s v)); [|auto]. injection E as <-. apply H2.
Qed.

(** C01 *)
Lemma store_observations K ops : key_family K -> Forall (op_ok K) ops ->
  let d := snd (crun [] ops) in
  (forall k c t, K k -> t <> "iss" ->
     match latest_item (rev ops) k t with
     | Some i => get_item d c t k = msg_new c i
     | None => exists e, get_item d c t k = Err (KeyError e)
     end) /\
  (forall k, K k ->
     match latest_iss (rev ops) k with
     | Some i => get_iss d k = Ok (VStr i)
     | None => exists e, get_iss d k = Err (KeyError e)
     end).
Proof.
  intros HK Ho d. destruct (run_rel K HK ops [] ainit (rel_init K) Ho) as [_ R]. fold d in R.
  split.
  - intros k c t Hk Ht. rewrite (get_item_rel K d _ c t k R Hk Ht).
    pose proof (sess_latest ops k) as L. destruct (A_sess (snd (arun ainit ops)) k) as [s|].
    + destruct L as [L _]. rewrite L. destruct (latest_item (rev ops) k t); eauto.
    + destruct L as [L _]. rewrite L. eauto.
  - intros k Hk. pose proof (get_iss_rel K d _ k R Hk) as G.
    pose proof (sess_latest ops k) as L. destruct (A_sess (snd (arun ainit ops)) k) as [[i its]|].
    + destruct L as [_ L]. cbn [a_iss] in L. rewrite <- L. destruct i; exact G.
    + destruct L as [_ L]. rewrite L. exact G.
Qed.
Lemma store_refines K ops : key_family K -> Forall (op_ok K) ops ->
  Forall2 (fun o rx => out_agrees o (fst rx) (snd rx)) ops
          (combine (fst (crun [] ops)) (fst (arun ainit ops))).
Proof. intros HK Ho. apply (run_rel K HK ops [] ainit (rel_init K) Ho). Qed.

(** C02: frame, on every database *)
Lemma get_state_frame d d' k : dget k d' = dget k d -> get_state d' k = get_state d k.
Proof. unfold get_state. now intros ->. Qed.
Lemma by_x_frame d d' x v : (forall ik, index_key x v = Ok ik -> dget ik d' = dget ik d) ->
  get_state_by_x d' v x = get_state_by_x d v x.
Proof. unfold get_state_by_x. destruct (index_key x v); [|reflexivity]. intros H. now rewrite (H a eq_refl). Qed.

Lemma remove_refs_frame refs : forall d k, (forall x v, In x kinds -> idx x v <> k) ->
  dget k (snd (remove_refs refs d)) = dget k d.
Proof.
  induction refs as [|[x w] r IH]; intros d k H; simpl; [reflexivity|].
  destruct w; try reflexivity. unfold index_key. destruct (key_pattern x) eqn:E; [|reflexivity].
  destruct (dhas (fmt s0 s) d); [|reflexivity]. rewrite IH by assumption.
  pose proof (pattern_kinds x s0 E) as Hx. specialize (H x s Hx).
  unfold idx, wrap in H. rewrite E in H. now rewrite dget_ddel_neq.
Qed.

Lemma sessions_isolated K d o k k' : key_family K -> op_ok K o -> K k' ->
  k = (match o with Create r _ key => created_key r key | Store _ _ _ k => k | Bind _ _ k => k | Remove k => k end) ->
  (k' <> k \/ exists x v, o = Bind x v k) ->
  get_state (snd (cstep d o)) k' = get_state d k'.
Proof.
  intros HK Ho Hk' -> Hn. apply get_state_frame. destruct HK as (Hne & Hi & Hr & Hg).
  destruct o as [rnd iss key|c m t k|x v k|k]; cbn [cstep op_ok] in *.
  - assert (N : created_key rnd key <> k') by (destruct Hn as [H|(x & v & H)]; [congruence|discriminate]).
    unfold create_state, created_key in *.
    destruct (key =?s "").
    + destruct (msg_new _ _); cbn [snd]; [now apply dget_dset_neq|reflexivity].
    + destruct (_ && _); [reflexivity|]. destruct (msg_new _ _); cbn [snd]; [now apply dget_dset_neq|reflexivity].
  - assert (N : k <> k') by (destruct Hn as [H|(x & v & H)]; [congruence|discriminate]).
    assert (G : dget k' (snd (store_item (IMsg c m) t k d)) = dget k' d).
    { unfold store_item. destruct (match get_state d k with Ok _ => _ | Err _ => _ end); [|reflexivity].
      destruct (msg_set _ _ _ _); [|reflexivity]. cbn [snd]. now apply dget_dset_neq. }
    destruct (store_item (IMsg c m) t k d). exact G.
  - destruct Ho as [Hk Hx].
    assert (G : dget k' (snd (store_x2state v k x d)) = dget k' d).
    { unfold store_x2state. rewrite (index_key_ok x v Hx).
      assert (N1 : idx x v <> k') by (apply not_eq_sym; now apply Hi).
      assert (N2 : ref_key k <> k') by (apply not_eq_sym; now apply Hr).
      destruct (dget (ref_key k) _); [destruct (json_loads s) as [[]|]|]; cbn [snd];
        rewrite ?(dget_dset_neq _ _ _ _ N2); now apply dget_dset_neq. }
    destruct (store_x2state v k x d). exact G.
  - assert (N : k <> k') by (destruct Hn as [H|(x & v & H)]; [congruence|discriminate]).
    assert (G : dget k' (snd (remove_state k d)) = dget k' d).
    { unfold remove_state. destruct (dhas k d); [|reflexivity].
      destruct (dget (ref_key k) (ddel k d)) as [txt|]; [|now apply dget_ddel_neq].
      destruct (json_loads txt) as [[]|]; cbn [snd]; try (now apply dget_ddel_neq).
      rewrite remove_refs_frame; [now apply dget_ddel_neq|]. intros x v Hx. apply not_eq_sym. now apply Hi. }
    destruct (remove_state k d). exact G.
Qed.

Lemma index_isolated K d o x v : key_family K -> op_ok K o -> In x kinds ->
  is_remove o = false -> (forall k, o <> Bind x v k) ->
  get_state_by_x (snd (cstep d o)) v x = get_state_by_x d v x.
Proof.
  intros HK Ho Hx Hr Hb. apply by_x_frame. rewrite (index_key_ok x v Hx). intros ik [= <-].
  destruct HK as (Hne & Hi & _ & Hg).
  destruct o as [rnd iss key|c m t k|x' v' k|k]; cbn [cstep op_ok is_remove] in *; try discriminate.
  - pose proof (Hi _ x v Ho Hx) as N. unfold create_state, created_key in *.
    destruct (key =?s "").
    + destruct (msg_new _ _); cbn [snd]; [now apply dget_dset_neq|reflexivity].
    + destruct (_ && _); [reflexivity|]. destruct (msg_new _ _); cbn [snd]; [now apply dget_dset_neq|reflexivity].
  - destruct Ho as [Ho _]. pose proof (Hi _ x v Ho Hx) as N.
    assert (G : dget (idx x v) (snd (store_item (IMsg c m) t k d)) = dget (idx x v) d).
    { unfold store_item. destruct (match get_state d k with Ok _ => _ | Err _ => _ end); [|reflexivity].
      destruct (msg_set _ _ _ _); [|reflexivity]. cbn [snd]. now apply dget_dset_neq. }
    destruct (store_item (IMsg c m) t k d). exact G.
  - destruct Ho as [Hk Hx'].
    assert (G : dget (idx x v) (snd (store_x2state v' k x' d)) = dget (idx x v) d).
    { unfold store_x2state. rewrite (index_key_ok x' v' Hx').
      assert (N1 : idx x' v' <> idx x v).
      { intros E. apply idx_inj in E as [-> ->]; [|assumption..]. now apply (Hb k). }
      assert (N2 : ref_key k <> idx x v) by (apply not_eq_sym; now apply idx_ref).
      destruct (dget (ref_key k) _); [destruct (json_loads s) as [[]|]|]; cbn [snd];
        rewrite ?(dget_dset_neq _ _ _ _ N2); now apply dget_dset_neq. }
    destruct (store_x2state v' k x' d). exact G.
Qed.

(** C03 *)
Lemma index_lookup K ops x v : key_family K -> Forall (op_ok K) ops -> In x kinds ->
  forallb (fun o => negb (is_remove o)) ops = true ->
  get_state_by_x (snd (crun [] ops)) v x =
  match latest_bind (rev ops) x v with Some k => Ok k | None => Err (KeyError v) end.
Proof.
  intros HK Ho Hx Hr. destruct (run_rel K HK ops [] ainit (rel_init K) Ho) as [_ R].
  rewrite (get_by_x_rel K _ _ x v R Hx).
  - now rewrite idx_latest.
  - intros s Hs. rewrite idx_latest in Hs by assumption.
    apply (latest_bind_K K) in Hs; [now apply HK|]. now apply Forall_rev.
Qed.

(** C04 *)
Lemma idx_bound ops : forall x v s, A_idx (snd (arun ainit ops)) x v = Some s -> In (Bind x v s) ops.
Proof.
  induction ops as [|o ops IH] using rev_ind; intros x v s; [discriminate|].
  rewrite arun_snoc, in_app_iff. set (a := snd (arun ainit ops)) in *.
  destruct o as [rnd iss key|c m t' k'|x' v' k'|k']; cbn [astep snd A_idx]; auto.
  - unfold upd2. destruct (String.eqb_spec x' x), (String.eqb_spec v' v); cbn [andb]; auto.
    intros [= <-]. subst. right. simpl. auto.
  - destruct (A_sess a k'); [|auto]. destruct (A_refs a k') as [|r0 rs]; [auto|].
    destruct (drop_refs (r0 :: rs) (A_idx a)) as [o' i] eqn:E. cbn [snd A_idx]. intros H. left. apply IH.
    apply (drop_refs_idx (r0 :: rs)). now rewrite E.
Qed.
Lemma A_refs_step a o k : A_refs (snd (astep a o)) k =
  match o with Bind x v k' => if k' =?s k then dset x v (A_refs a k) else A_refs a k | _ => A_refs a k end.
Proof.
  destruct o as [rnd iss key|c m t' k'|x' v' k'|k']; cbn [astep snd A_refs]; auto.
  - unfold upd. destruct (String.eqb_spec k' k); [now subst|reflexivity].
  - destruct (A_sess a k'); [|auto]. destruct (A_refs a k') as [|r0 rs]; [auto|].
    destruct (drop_refs (r0 :: rs) (A_idx a)). reflexivity.
Qed.
Lemma refs_bound ops k : forall x v, dget x (A_refs (snd (arun ainit ops)) k) = Some v -> In (Bind x v k) ops.
Proof.
  induction ops as [|o ops IH] using rev_ind; intros x v; [discriminate|].
  rewrite arun_snoc, in_app_iff, A_refs_step. destruct o as [| |x' v' k'|]; auto.
  destruct (String.eqb_spec k' k); [|auto]. subst. rewrite dget_dset.
  destruct (String.eqb_spec x' x); [intros [= <-]; subst; right; simpl; auto|auto].
Qed.
Lemma refs_complete ops k : forall x v, In (Bind x v k) ops ->
  exists v', dget x (A_refs (snd (arun ainit ops)) k) = Some v'.
Proof.
  induction ops as [|o ops IH] using rev_ind; intros x v; [easy|].
  rewrite arun_snoc, in_app_iff, A_refs_step. intros [H|[->|[]]].
  - apply IH in H as [v' H]. destruct o as [| |x2 v2 k2|]; eauto.
    destruct (k2 =?s k); eauto. rewrite dget_dset. destruct (x2 =?s x); eauto.
  - rewrite eqb_refl, dget_dset_eq. eauto.
Qed.
Lemma refs_NoDup ops k : NoDup (dkeys (A_refs (snd (arun ainit ops)) k)).
Proof.
  induction ops as [|o ops IH] using rev_ind; [constructor|]. rewrite arun_snoc, A_refs_step.
  destruct o as [| |x2 v2 k2|]; auto. destruct (k2 =?s k); [now apply NoDup_dset|assumption].
Qed.
Lemma dget_of_In {A} x (v : A) r : NoDup (dkeys r) -> In (x, v) r -> dget x r = Some v.
Proof.
  induction r as [|[y w] r IH]; simpl; [easy|]. intros Hn [[= -> ->]|H]; [now rewrite eqb_refl|].
  inversion Hn; subst. rewrite eqb_neq; [auto|]. intros ->. apply H2. unfold dkeys. apply in_map_iff. now exists (x, v).
Qed.

Lemma drop_refs_spec refs : forall f x v, NoDup (dkeys refs) ->
  (forall y w, In (y, w) refs -> exists s, f y w = Some s) ->
  fst (drop_refs refs f) = ODone /\
  snd (drop_refs refs f) x v = (if match dget x refs with Some w => w =?s v | None => false end then None else f x v).
Proof.
  induction refs as [|[y w] r IH]; intros f x v Hn Hf; [simpl; auto|].
  inversion Hn as [|? ? Hy Hr]; subst. cbn [drop_refs].
  destruct (Hf y w (or_introl eq_refl)) as [s ->].
  destruct (IH (upd2 f y w None) x v Hr) as [I1 I2].
  - intros y' w' Hin. destruct (Hf y' w' (or_intror Hin)) as [s' Hs']. exists s'. unfold upd2.
    rewrite eqb_neq; [exact Hs'|]. intros ->. apply Hy. apply in_map_iff. now exists (y', w').
  - split; [exact I1|]. rewrite I2. unfold upd2. cbn [dget].
    destruct (String.eqb_spec y x); [|reflexivity]. subst. cbn [andb].
    destruct (dget x r) eqn:E.
    + exfalso. apply Hy. apply dget_In in E. apply in_map_iff. now exists (x, s0).
    + now destruct (w =?s v).
Qed.

Lemma idx_live ops : forall k, exclusive k ops -> forall x v, In (Bind x v k) ops ->
  A_idx (snd (arun ainit ops)) x v = Some k.
Proof.
  induction ops as [|o ops IH] using rev_ind; intros k (E1 & E2 & E3) x v; [easy|].
  assert (Ex : exclusive k ops).
  { repeat split.
    - intros y w w' H H'. apply (E1 y); apply in_app_iff; auto.
    - intros y w k' H H'. apply (E2 y w); apply in_app_iff; auto.
    - intros H. apply E3, in_app_iff. auto. }
  rewrite in_app_iff, arun_snoc. set (a := snd (arun ainit ops)) in *. intros Hin.
  destruct o as [rnd iss key|c m t' k'|x' v' k'|k'];
    try (destruct Hin as [Hin|[Hin|[]]]; [cbn [astep snd A_idx]; now apply IH|discriminate]).
  - cbn [astep snd A_idx]. unfold upd2.
    destruct (String.eqb_spec x' x), (String.eqb_spec v' v); cbn [andb].
    + subst. f_equal. apply (E2 x v); apply in_app_iff; [tauto|right; now left].
    + destruct Hin as [Hin|[[= ? ? ?]|[]]]; [now apply IH|congruence].
    + destruct Hin as [Hin|[[= ? ? ?]|[]]]; [now apply IH|congruence].
    + destruct Hin as [Hin|[[= ? ? ?]|[]]]; [now apply IH|congruence].
  - destruct Hin as [Hin|[Hin|[]]]; [|discriminate].
    assert (Hk : k' <> k) by (intros ->; apply E3, in_app_iff; right; now left).
    pose proof (IH k Ex x v Hin) as L. cbn [astep].
    destruct (A_sess a k'); [|exact L]. destruct (A_refs a k') as [|r0 rs] eqn:Er; [exact L|].
    destruct (drop_refs (r0 :: rs) (A_idx a)) as [o' i] eqn:Ed. cbn [snd A_idx].
    assert (Q : forall refs f, (forall w, In (x, w) refs -> w <> v) -> f x v = Some k ->
                 snd (drop_refs refs f) x v = Some k).
    { clear. induction refs as [|[y w] r IHr]; intros f H F; simpl; [assumption|].
      destruct (f y w); [|assumption]. apply IHr; [intros w' Hw'; apply H; now right|].
      unfold upd2. destruct (String.eqb_spec y x), (String.eqb_spec w v); cbn [andb]; auto.
      subst. exfalso. apply (H v); [now left|reflexivity]. }
    specialize (Q (r0 :: rs) (A_idx a)). rewrite Ed in Q. apply Q; [|exact L].
    intros w Hw ->. apply Hk. apply (E2 x v); apply in_app_iff; left; [assumption|].
    apply (refs_bound ops k' x v). fold a. rewrite Er. apply dget_of_In; [|assumption].
    rewrite <- Er. apply refs_NoDup.
Qed.

Lemma remove_clean K ops k : key_family K -> Forall (op_ok K) ops -> K k ->
  exclusive k ops -> (exists x v, In (Bind x v k) ops) ->
  (exists m, get_state (snd (crun [] ops)) k = Ok m) ->
  let d := snd (crun [] ops) in
  let d' := snd (remove_state k d) in
  fst (remove_state k d) = Ok tt /\
  get_state d' k = Err (KeyError k) /\
  (forall x v, In x kinds -> get_state_by_x d' v x <> Ok k) /\
  (forall k', K k' -> k' <> k -> get_state d' k' = get_state d k') /\
  (forall x v s, In x kinds -> s <> k -> get_state_by_x d v x = Ok s -> get_state_by_x d' v x = Ok s).
Proof.
  intros HK Ho Hk Hex (x0 & v0 & Hb) (m & Hm) d d'.
  destruct (run_rel K HK ops [] ainit (rel_init K) Ho) as [_ R]. fold d in R.
  set (a := snd (arun ainit ops)) in *.
  pose proof (remove_rel K HK d a k R Hk) as [G1 G2]. cbn [cstep] in G1, G2.
  pose proof (get_state_rel K d a k R Hk) as Gs. fold d in Hm. rewrite Hm in Gs.
  destruct (A_sess a k) as [s|] eqn:Es; [|discriminate].
  assert (Hd : snd (let (r, d'0) := remove_state k d in (match r with Ok _ => Ok "" | Err e => Err e end, d'0)) = d').
  { subst d'. destruct (remove_state k d). reflexivity. }
  rewrite Hd in G2. cbn [astep] in G1, G2. rewrite Es in G1, G2.
  destruct (refs_complete ops k x0 v0 Hb) as [v1 Hv1]. fold a in Hv1.
  destruct (A_refs a k) as [|r0 rs] eqn:Er; [discriminate|].
  pose proof (refs_NoDup ops k) as Hn. fold a in Hn. rewrite Er in Hn.
  assert (Hl : forall y w, In (y, w) (r0 :: rs) -> exists s, A_idx a y w = Some s).
  { intros y w Hin. exists k. apply idx_live; [assumption|].
    apply (refs_bound ops k). fold a. rewrite Er. now apply dget_of_In. }
  pose proof (fun x v => drop_refs_spec (r0 :: rs) (A_idx a) x v Hn Hl) as D.
  destruct (drop_refs (r0 :: rs) (A_idx a)) as [o i]. cbn [fst snd] in *.
  assert (Eo : o = ODone) by apply (D "" ""). subst o.
  assert (Hne : forall x v s0, i x v = Some s0 -> A_idx a x v = Some s0 /\ s0 <> "").
  { intros x v s0 H. destruct (D x v) as [_ Dv]. rewrite H in Dv.
    destruct (match dget x (r0 :: rs) with Some w => w =?s v | None => false end); [discriminate|].
    symmetry in Dv. split; [exact Dv|]. apply (idx_bound ops) in Dv. rewrite Forall_forall in Ho.
    apply Ho in Dv. apply HK. apply Dv. }
  split; [|split; [|split; [|split]]].
  - destruct (remove_state k d) as [r ?]. cbn [fst] in *. cbn [out_agrees] in G1. destruct r as [[]|]; [reflexivity|discriminate].
  - pose proof (get_state_rel K d' _ k G2 Hk) as G. cbn [A_sess] in G. unfold upd in G. now rewrite eqb_refl in G.
  - intros x v Hx. rewrite (get_by_x_rel K d' _ x v G2 Hx); cbn [A_idx].
    + destruct (i x v) as [s0|] eqn:Ei; [|discriminate]. intros [= ->].
      destruct (Hne x v k Ei) as [Ha _]. apply (idx_bound ops) in Ha.
      destruct (refs_complete ops k x v Ha) as [v' Hv']. fold a in Hv'.
      pose proof (refs_bound ops k x v' Hv') as Hb'. assert (v' = v) by (destruct Hex as (E1 & _); now apply (E1 x)). subst v'.
      destruct (D x v) as [_ Dv]. rewrite Er in Hv'. rewrite Hv', eqb_refl in Dv. congruence.
    + intros s0 Hs0. now apply (Hne x v).
  - intros k' Hk' Hne'.
    pose proof (sessions_isolated K d (Remove k) k k' HK Hk Hk' eq_refl (or_introl Hne')) as S.
    cbn [cstep] in S. rewrite Hd in S. exact S.
  - intros x v s0 Hx Hs0. rewrite (get_by_x_rel K d a x v R Hx), (get_by_x_rel K d' _ x v G2 Hx); cbn [A_idx].
    + destruct (A_idx a x v) as [s1|] eqn:Ea; [|discriminate]. intros [= ->].
      destruct (D x v) as [_ Dv].
      destruct (dget x (r0 :: rs)) as [w|] eqn:Ew; [|now rewrite Dv, Ea].
      destruct (String.eqb_spec w v); [|now rewrite Dv, Ea]. subst w.
      exfalso. apply Hs0. assert (Bk : In (Bind x v k) ops) by (apply (refs_bound ops k); fold a; now rewrite Er).
      pose proof (idx_live ops k Hex x v Bk) as L. fold a in L. congruence.
    + intros s1 H. now apply (Hne x v).
    + intros s1 H. apply (idx_bound ops) in H. rewrite Forall_forall in Ho. apply Ho in H. apply HK, H.
Qed.

(** C06 *)
Lemma fill_param_get orig it args p q :
  dget q (fill_param orig it args p) =
  if p =?s q then match offer orig it p with Some v => Some v | None => dget q args end else dget q args.
Proof.
  unfold fill_param, offer. destruct orig.
  - destruct (dget p it); [|now destruct (p =?s q)]. rewrite dget_dset. reflexivity.
  - destruct (dget (verified p) it); [now rewrite dget_dset|].
    destruct (dget p it); [now rewrite dget_dset|now destruct (p =?s q)].
Qed.
Lemma fill_params_get orig it ps : forall args q,
  dget q (fill_params orig it args ps) =
  if mem_str q ps then match offer orig it q with Some v => Some v | None => dget q args end else dget q args.
Proof.
  unfold fill_params. induction ps as [|p ps IH]; intros args q; simpl; [reflexivity|].
  rewrite IH, fill_param_get. rewrite (String.eqb_sym q p). fold (mem_str q ps).
  destruct (String.eqb_spec p q); [subst|reflexivity]. simpl.
  destruct (mem_str q ps); [|reflexivity]. now destruct (offer orig it q).
Qed.
Lemma msg_new_plain d : exists m, msg_new cMessage d = Ok m.
Proof.
  unfold msg_new. generalize (c_default cMessage). induction d as [|[k v] d IH]; intros m; simpl; [eauto|].
  destruct (skipped v); apply IH.
Qed.
Lemma mult_extend_get st ps orig typs : forall args r,
  mult_extend_loop st args ps typs orig = Ok r ->
  forall q, dget q r = if mem_str q ps then
                         match last_offer orig (present st typs) q with Some v => Some v | None => dget q args end
                       else dget q args.
Proof.
  induction typs as [|t typs IH]; intros args r; cbn [mult_extend_loop present].
  - intros [= ->] q. simpl. now destruct (mem_str q ps).
  - destruct (dget t st) as [[| | | | |i]|]; try discriminate.
    + destruct (msg_new_plain i) as [it ->]. intros H q. rewrite (IH _ _ H q), fill_params_get.
      destruct (mem_str q ps); [|reflexivity]. cbn [last_offer].
      now destruct (last_offer orig (present st typs) q).
    + intros H q. now rewrite (IH _ _ H q).
Qed.
Lemma mult_extend_spec d args k ps typs orig st r :
  get_state d k = Ok st -> multiple_extend_request_args d args k ps typs orig = Ok r ->
  forall q, dget q r = if mem_str q ps
                       then match last_offer orig (present st typs) q with
                            | Some v => Some v | None => dget q args end
                       else dget q args.
Proof. unfold multiple_extend_request_args. intros ->. apply mult_extend_get. Qed.
Lemma extend_get d args c t k ps orig it r :
  get_item d c t k = Ok it -> extend_request_args d args c t k ps orig = Ok r ->
  forall q, dget q r = if mem_str q ps
                       then match offer orig it q with Some v => Some v | None => dget q args end
                       else dget q args.
Proof. unfold extend_request_args. intros -> [= <-] q. apply fill_params_get. Qed.
Lemma extend_missing d args c t k ps orig e :
  get_item d c t k = Err (KeyError e) -> extend_request_args d args c t k ps orig = Ok args.
Proof. unfold extend_request_args. now intros ->. Qed.
Lemma nonce_key_rejected rnd iss v d : create_state rnd iss (fmt "__" v) d = (Err ValueError, d).
Proof. unfold create_state. rewrite fmt_shape. reflexivity. Qed.
(** tactic for the examples: a concrete list of operations is admissible *)
Ltac ops_ok :=
  repeat (apply Forall_cons; [cbn; repeat split; (reflexivity || discriminate || (simpl; auto 10))|]);
  apply Forall_nil.
