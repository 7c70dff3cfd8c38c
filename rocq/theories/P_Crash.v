(** Proofs for T_Crash.v *)
From Verif Require Import Base BaseP Json JsonP Msg M_State S_State P_State M_Ctx M_Codec M_Authz M_ClientAuth
  M_Service M_Token M_Handler S_Service S_Token S_Handler S_Flow S_Trace S_Sched M_Conc S_Conc M_Crash S_Crash P_Ctx P_Authz P_Codec P_ClientAuth P_Service P_Wire P_Token
  P_Handler P_Flow P_Trace P_Handler2 P_Sim P_SimK P_Sched P_Conc.

(** ** the writes of an operation *)
Lemma ref_writes_all refs : forall d, do_writes d (ref_writes refs d) = snd (remove_refs refs d).
Proof.
  induction refs as [|[x y] r IH]; intros d; [reflexivity|]. destruct y as [| | |v| |]; try reflexivity. cbn [ref_writes remove_refs].
  destruct (index_key x v) as [ik|]; [|reflexivity]. destruct (dhas ik d); [|reflexivity].
  cbn [do_writes fold_left do_write]. apply IH.
Qed.
Lemma writes_all d o : do_writes d (writes_of d o) = snd (cstep d o).
Proof.
  destruct o as [rnd iss key|c m t k|x v k|k]; cbn [writes_of cstep].
  - unfold create_state, created_key. destruct (key =?s ""); cbn [negb andb].
    + destruct (msg_new cState _); reflexivity.
    + destruct (starts_with "__" key && ends_with "__" key); [reflexivity|]. destruct (msg_new cState _); reflexivity.
  - unfold store_item. destruct (match get_state d k with Ok s => Ok s | Err (KeyError _) => Ok [] | Err e => Err e end) as [s|]; [|reflexivity].
    destruct (msg_set cState t (VStr (msg_to_json c m)) s); reflexivity.
  - unfold store_x2state. destruct (index_key x v) as [ik|]; [|reflexivity]. cbn [do_writes fold_left do_write].
    destruct (dget (ref_key k) (dset ik k d)) as [txt|]; [|reflexivity]. destruct (json_loads txt) as [[| | | | |refs]|]; reflexivity.
  - unfold remove_state. destruct (dhas k d); [|reflexivity]. cbn [do_writes fold_left do_write].
    destruct (dget (ref_key k) (ddel k d)) as [txt|]; [|reflexivity]. destruct (json_loads txt) as [[| | | | |refs]|]; try reflexivity.
    pose proof (ref_writes_all refs (ddel k d)) as H. unfold do_writes in H. rewrite H. now destruct (remove_refs refs (ddel k d)) as [[]].
Qed.
Lemma writes_len d o : (forall k, o <> Remove k) -> List.length (writes_of d o) <= (match o with Bind _ _ _ => 2 | _ => 1 end).
Proof.
  intros N. destruct o as [rnd iss key|c m t k|x v k|k]; cbn [writes_of]; [| | |now destruct (N k)].
  - destruct (_ && _); [cbn; lia|]. destruct (msg_new _ _); cbn; lia.
  - destruct (match get_state d k with Ok s => Ok s | Err (KeyError _) => Ok [] | Err e => Err e end); [|cbn; lia]. destruct (msg_set _ _ _ _); cbn; lia.
  - destruct (index_key x v); [|cbn; lia]. cbn [List.length]. destruct (dget _ _); [|cbn; lia]. destruct (json_loads _) as [[]|]; cbn; lia.
Qed.
Lemma cut_all n d o : List.length (writes_of d o) <= n -> cut n d o = snd (cstep d o).
Proof. intros H. unfold cut. rewrite firstn_all2 by exact H. apply writes_all. Qed.
Lemma cut_0 d o : cut 0 d o = d. Proof. reflexivity. Qed.

(** which entries an operation writes, whatever the database *)
Definition entry_of (o : op) (q : string) : Prop :=
  match o with
  | Create rnd _ key => q = created_key rnd key
  | Store _ _ _ k => q = k
  | Bind x v k => q = idx x v \/ q = ref_key k
  | Remove k => q = k \/ exists x v, In x kinds /\ q = idx x v
  end.
Definition w_key (w : write) : string := match w with WSet q _ => q | WDel q => q end.
Lemma ref_writes_keys refs : forall d w, In w (ref_writes refs d) -> exists x v, In x kinds /\ w_key w = idx x v.
Proof.
  induction refs as [|[x y] r IH]; intros d w H; [contradiction|]. destruct y as [| | |v| |]; try contradiction. cbn [ref_writes] in H.
  destruct (index_key x v) as [ik|] eqn:E; [|contradiction]. destruct (dhas ik d); [|contradiction]. destruct H as [<-|H]; [|eauto].
  unfold index_key in E. destruct (key_pattern x) as [p|] eqn:Ep; [|discriminate]. injection E as <-. exists x, v.
  split; [eapply pattern_kinds; eauto|]. cbn. unfold idx, wrap. now rewrite Ep.
Qed.
Lemma writes_keys d o w : In w (writes_of d o) -> entry_of o (w_key w).
Proof.
  destruct o as [rnd iss key|c m t k|x v k|k]; cbn [writes_of entry_of].
  - destruct (_ && _); [contradiction|]. destruct (msg_new _ _); [|contradiction]. intros [<-|[]]. reflexivity.
  - destruct (match get_state d k with Ok s => Ok s | Err (KeyError _) => Ok [] | Err e => Err e end); [|contradiction].
    destruct (msg_set _ _ _ _); [|contradiction]. intros [<-|[]]. reflexivity.
  - destruct (index_key x v) as [ik|] eqn:E; [|contradiction]. unfold index_key in E. destruct (key_pattern x) as [p|] eqn:Ep; [|discriminate]. injection E as <-.
    assert (EI : fmt p v = idx x v) by (unfold idx, wrap; now rewrite Ep). intros [<-|H]; [left; exact EI|]. right.
    destruct (dget _ _) as [txt|]; [destruct (json_loads txt) as [[]|]; try contradiction|]; destruct H as [<-|[]]; reflexivity.
  - destruct (dhas k d); [|contradiction]. intros [<-|H]; [now left|]. right.
    destruct (dget _ _) as [txt|]; [|contradiction]. destruct (json_loads txt) as [[]|]; try contradiction. eapply ref_writes_keys; eauto.
Qed.
Lemma do_writes_other ws q : (forall w, In w ws -> w_key w <> q) -> forall d, dget q (do_writes d ws) = dget q d.
Proof.
  induction ws as [|w ws IH]; intros H d; [reflexivity|]. cbn [do_writes fold_left]. fold (do_writes (do_write d w) ws).
  rewrite IH by (intros w' H'; apply H; now right). specialize (H w (or_introl eq_refl)). destruct w; cbn in *; [now rewrite dget_dset_neq|now rewrite dget_ddel_neq].
Qed.
Lemma firstn_in {A} n (l : list A) x : In x (firstn n l) -> In x l.
Proof. intros H. rewrite <- (firstn_skipn n l). apply in_or_app. now left. Qed.
Lemma cut_other n d o q : ~ entry_of o q -> dget q (cut n d o) = dget q d.
Proof. intros N. apply do_writes_other. intros w Hw <-. apply N. eapply writes_keys, firstn_in; eauto. Qed.

(** ** the abstract machine under crashes *)
Definition seq_eq (s s' : option asess) : Prop :=
  match s, s' with
  | None, None => True
  | Some s, Some s' => a_iss s = a_iss s' /\ forall t, a_items s t = a_items s' t
  | _, _ => False
  end.
Definition aeq (a a' : astate) : Prop :=
  (forall k, seq_eq (A_sess a k) (A_sess a' k)) /\ (forall k, A_refs a k = A_refs a' k) /\ (forall x v, A_idx a x v = A_idx a' x v).
Lemma dset_dset_eq {A} x (v : A) d : dset x v (dset x v d) = dset x v d.
Proof. induction d as [|[q w] d IH]; cbn; [now rewrite eqb_refl|]. destruct (q =?s x) eqn:E; cbn; rewrite E; [reflexivity|now rewrite IH]. Qed.

Section Crash.
  Variable K : string -> Prop.
  Hypothesis HK : key_family K.
  Local Notation rel := (P_State.rel K).
  Lemma rel_ext d a a' : rel d a -> aeq a a' -> rel d a'.
  Proof.
    intros (R1 & R2 & R3 & R4) (E1 & E2 & E3). split; [|split; [|split]].
    - intros k Hk. specialize (R1 k Hk). specialize (E1 k). destruct (A_sess a k) as [s|], (A_sess a' k) as [s'|]; cbn in E1; try contradiction; [|exact R1].
      destruct R1 as (m & D & S). exists m. split; [exact D|]. destruct E1 as [I T]. destruct S as (S1 & S2 & S3). unfold sess_rel.
      rewrite <- I. split; [exact S1|]. split; [exact S2|]. intros t Ht. rewrite <- T. now apply S3.
    - intros k Hk. rewrite <- E2. now apply R2.
    - intros k Hk. rewrite <- E2. now apply R3.
    - intros x v Hx. rewrite <- E3. now apply R4.
  Qed.
  Ltac neq :=
    first [ assumption
          | now apply (K_ref K HK) | now apply (K_idx K HK) | now apply idx_ref
          | apply not_eq_sym; first [assumption | now apply (K_ref K HK) | now apply (K_idx K HK) | now apply idx_ref] ].
  Lemma rel_del_idx d a x v : rel d a -> In x kinds ->
    rel (ddel (idx x v) d) {| A_sess := A_sess a; A_refs := A_refs a; A_idx := upd2 (A_idx a) x v None |}.
  Proof.
    intros (R1 & R2 & R3 & R4) Hx. split; [|split; [|split]]; cbn [A_sess A_refs A_idx].
    - intros k Hk. rewrite dget_ddel_neq by neq. now apply R1.
    - intros k Hk. rewrite dget_ddel_neq by neq. now apply R2.
    - exact R3.
    - intros x' v' Hx'. unfold upd2. rewrite dget_ddel. destruct (String.eqb_spec (idx x v) (idx x' v')) as [E|E].
      + apply idx_inj in E as [-> ->]; [|assumption..]. now rewrite !eqb_refl.
      + replace ((x =?s x') && (v =?s v')) with false; [now apply R4|].
        symmetry. apply not_true_is_false. rewrite andb_true_iff, !String.eqb_eq. intros [-> ->]. congruence.
  Qed.
  Lemma rel_set_idx d a x v k : rel d a -> In x kinds ->
    rel (dset (idx x v) k d) {| A_sess := A_sess a; A_refs := A_refs a; A_idx := upd2 (A_idx a) x v (Some k) |}.
  Proof.
    intros (R1 & R2 & R3 & R4) Hx. split; [|split; [|split]]; cbn [A_sess A_refs A_idx].
    - intros k' Hk. rewrite dget_dset_neq by neq. now apply R1.
    - intros k' Hk. rewrite dget_dset_neq by neq. now apply R2.
    - exact R3.
    - intros x' v' Hx'. unfold upd2. rewrite dget_dset. destruct (String.eqb_spec (idx x v) (idx x' v')) as [E|E].
      + apply idx_inj in E as [-> ->]; [|assumption..]. now rewrite !eqb_refl.
      + replace ((x =?s x') && (v =?s v')) with false; [now apply R4|].
        symmetry. apply not_true_is_false. rewrite andb_true_iff, !String.eqb_eq. intros [-> ->]. congruence.
  Qed.
  Lemma rel_del_sess d a k : rel d a -> K k -> rel (ddel k d) {| A_sess := upd (A_sess a) k None; A_refs := A_refs a; A_idx := A_idx a |}.
  Proof.
    intros (R1 & R2 & R3 & R4) Hk. split; [|split; [|split]]; cbn [A_sess A_refs A_idx].
    - intros k' Hk'. unfold upd. rewrite dget_ddel. destruct (k =?s k') eqn:E; [reflexivity|]. now apply R1.
    - intros k' Hk'. rewrite dget_ddel_neq by neq. now apply R2.
    - exact R3.
    - intros x v Hx. rewrite dget_ddel_neq by neq. now apply R4.
  Qed.
  Definition strs_of (r : dict string) : list (string * val) := map (fun kv => (fst kv, VStr (snd kv))) r.
  Lemma ref_cut r : forall n d a, rel d a -> Forall (fun xv => In (fst xv) kinds) r ->
    exists i, rel (do_writes d (firstn n (ref_writes (strs_of r) d))) {| A_sess := A_sess a; A_refs := A_refs a; A_idx := i |} /\
      forall x v s, i x v = Some s -> A_idx a x v = Some s.
  Proof.
    induction r as [|[x v] r IH]; intros n d a R F.
    - exists (A_idx a). cbn. rewrite firstn_nil. split; [destruct a; exact R|auto].
    - assert (STOP : exists i, rel d {| A_sess := A_sess a; A_refs := A_refs a; A_idx := i |} /\ forall x v s, i x v = Some s -> A_idx a x v = Some s)
        by (exists (A_idx a); split; [destruct a; exact R|auto]).
      inversion F as [|? ? Fx Fr]; subst. cbn [fst] in Fx. cbn [strs_of map fst snd ref_writes]. rewrite (index_key_ok x v Fx).
      destruct (dhas (idx x v) d); [|rewrite firstn_nil; exact STOP]. destruct n as [|n]; [exact STOP|]. cbn [firstn do_writes fold_left do_write].
      destruct (IH n _ _ (rel_del_idx d a x v R Fx) Fr) as (i & R' & P). exists i. split; [exact R'|].
      intros y w s H. specialize (P _ _ _ H). cbn [A_idx] in P. unfold upd2 in P. destruct (_ && _); [discriminate|exact P].
  Qed.
  Lemma aeq_refl a : aeq a a.
  Proof. split; [|split; reflexivity]. intros k. destruct (A_sess a k); cbn; auto. Qed.
  Lemma upd_twice {B} (f : string -> B) k b b' : forall q, upd (upd f k b) k b' q = upd f k b' q.
  Proof. intros q. unfold upd. now destruct (k =?s q). Qed.
  Lemma upd_at {B} (f : string -> B) k b : upd f k b k = b.
  Proof. unfold upd. now rewrite eqb_refl. Qed.
  Lemma upd2_twice {B} (f : string -> string -> B) x v b b' : forall y w, upd2 (upd2 f x v b) x v b' y w = upd2 f x v b' y w.
  Proof. intros y w. unfold upd2. now destruct ((x =?s y) && (v =?s w)). Qed.
  (** doing an operation again *)
  Lemma twice a o : is_remove o = false -> aeq (snd (astep (snd (astep a o)) o)) (snd (astep a o)).
  Proof.
    destruct o as [rnd iss key|c m t k|x v k|k]; intros NR; [| | |discriminate].
    - cbn [astep snd A_sess A_refs A_idx]. split; [|split; reflexivity]. cbn [A_sess].
      intros q. rewrite upd_twice. unfold upd. destruct (_ =?s q); [cbn; auto|]. destruct (A_sess a q); cbn; auto.
    - cbn [astep snd A_sess A_refs A_idx]. split; [|split; reflexivity]. cbn [A_sess].
      intros q. rewrite upd_twice, ?upd_at. cbn [a_iss a_items]. destruct (k =?s q) eqn:E.
      + apply String.eqb_eq in E. subst q. rewrite !upd_at. cbn. split; [reflexivity|]. intros t'. apply upd_twice.
      + unfold upd. rewrite E. destruct (A_sess a q); cbn; auto.
    - cbn [astep snd A_sess A_refs A_idx]. split; [|split]; cbn [A_sess A_refs A_idx].
      + intros q. destruct (A_sess a q); cbn; auto.
      + intros q. rewrite upd_twice, upd_at. unfold upd. destruct (k =?s q); [apply dset_dset_eq|reflexivity].
      + apply upd2_twice.
  Qed.
  (** what a cut operation leaves *)
  Record leaves_as (n : nat) (o : op) (a a' : astate) : Prop := {
    l_none : n = 0 -> a' = a;
    l_sess : 0 < n -> A_sess a' = A_sess (snd (astep a o));
    l_idx : 0 < n -> is_remove o = false -> A_idx a' = A_idx (snd (astep a o));
    l_from : forall x v s, A_idx a' x v = Some s -> A_idx a x v = Some s \/ (0 < n /\ o = Bind x v s);
    l_again : is_remove o = false -> aeq (snd (astep a' o)) (snd (astep a o))
  }.
  Lemma leaves_nothing o a : leaves_as 0 o a a.
  Proof. split; auto; try lia. intros _. apply aeq_refl. Qed.
  Lemma idx_step a o x v s : A_idx (snd (astep a o)) x v = Some s -> A_idx a x v = Some s \/ o = Bind x v s.
  Proof.
    destruct o as [rnd iss key|c m t' k'|x' v' k'|k']; cbn [astep snd A_idx]; auto.
    - unfold upd2. destruct (String.eqb_spec x' x), (String.eqb_spec v' v); cbn [andb]; auto. intros [= <-]. subst. auto.
    - destruct (A_sess a k'); [|auto]. destruct (A_refs a k') as [|r0 rs]; [auto|].
      destruct (drop_refs (r0 :: rs) (A_idx a)) as [o' i] eqn:E. cbn [snd A_idx]. intros H. left.
      apply (drop_refs_idx (r0 :: rs)). now rewrite E.
  Qed.
  Lemma leaves_all n o a : 0 < n -> leaves_as n o a (snd (astep a o)).
  Proof.
    intros N. split; auto; try lia.
    - intros x v s H. destruct (idx_step _ _ _ _ _ H); auto.
    - intros NR. now apply twice.
  Qed.
  Lemma cut_rel n d a o : rel d a -> op_ok K o -> exists a', rel (cut n d o) a' /\ leaves_as n o a a'.
  Proof.
    intros R Ho. destruct n as [|n]; [exists a; split; [exact R|apply leaves_nothing]|].
    assert (ALL : List.length (writes_of d o) <= S n -> exists a', rel (cut (S n) d o) a' /\ leaves_as (S n) o a a').
    { intros H. rewrite cut_all by exact H. destruct (step_rel K HK d a o R Ho) as [_ R']. exists (snd (astep a o)). split; [exact R'|apply leaves_all; lia]. }
    destruct o as [rnd iss key|c m t k|x v k|k].
    - apply ALL. pose proof (writes_len d (Create rnd iss key) ltac:(discriminate)) as L. cbn in L. cbn. lia.
    - apply ALL. pose proof (writes_len d (Store c m t k) ltac:(discriminate)) as L. cbn iota in L. lia.
    - pose proof (writes_len d (Bind x v k) ltac:(discriminate)) as L. cbn iota in L. destruct n as [|n]; [|apply ALL; lia].
      destruct Ho as [Hk Hx]. unfold cut. cbn [writes_of]. rewrite (index_key_ok x v Hx). cbn [firstn do_writes fold_left do_write].
      eexists. split; [apply rel_set_idx; eassumption|]. split; try (intros; lia).
      + intros _. reflexivity.
      + intros _ _. reflexivity.
      + intros y w s. cbn [A_idx]. unfold upd2. destruct (String.eqb_spec x y), (String.eqb_spec v w); cbn [andb]; auto. intros [= <-]. subst. right. split; [lia|reflexivity].
      + intros _. cbn [astep snd]. split; [|split]; cbn [A_sess A_refs A_idx].
        * intros q. destruct (A_sess a q); cbn; auto.
        * reflexivity.
        * apply upd2_twice.
    - cbn [op_ok] in Ho. pose proof R as (R1 & R2 & R3 & R4). pose proof (R1 k Ho) as Rk. unfold cut. cbn [writes_of]. unfold dhas.
      cbn [astep]. destruct (A_sess a k) as [s|] eqn:Es.
      + destruct Rk as (m & -> & _). cbn [firstn do_writes fold_left do_write]. rewrite dget_ddel_neq by neq. rewrite (R2 k Ho).
        pose proof (rel_del_sess d a k R Ho) as RD.
        assert (SE : forall i, A_sess (snd (astep a (Remove k))) = upd (A_sess a) k None /\ A_sess {| A_sess := upd (A_sess a) k None; A_refs := A_refs a; A_idx := i |} = upd (A_sess a) k None).
        { intros i. split; [|reflexivity]. cbn [astep]. rewrite Es. destruct (A_refs a k) as [|p q]; [reflexivity|]. now destruct (drop_refs (p :: q) (A_idx a)). }
        destruct (A_refs a k) as [|r0 rs] eqn:Er.
        * rewrite firstn_nil. eexists. split; [exact RD|]. split; try (intros; lia); try discriminate; auto. intros _. now rewrite (proj1 (SE (A_idx a))).
        * rewrite json_roundtrip. unfold refs_val.
          assert (F : Forall (fun xv => In (fst xv) kinds) (r0 :: rs)) by (rewrite <- Er; now apply R3).
          destruct (ref_cut (r0 :: rs) n _ _ RD F) as (i & R' & P). cbn [A_sess A_refs A_idx] in R', P. eexists. split; [exact R'|].
          split; try (intros; lia); try discriminate; auto. intros _. now rewrite (proj1 (SE i)).
      + rewrite Rk. rewrite firstn_nil. exists a. split; [exact R|]. split; try (intros; lia); try discriminate; auto. intros _. cbn [astep]. now rewrite Es.
  Qed.

  (** ** histories *)
  (** abstract states that are the same for sessions *)
  Definition ok_event (e : event) : Prop := op_ok K (fst e).
  Lemma sess_cong a a' o : A_sess a = A_sess a' -> A_sess (snd (astep a o)) = A_sess (snd (astep a' o)).
  Proof.
    intros E. destruct o as [rnd iss key|c m t k|x v k|k]; cbn [astep snd A_sess]; rewrite ?E; try reflexivity.
    destruct (A_sess a' k); [|exact E]. destruct (A_refs a k) as [|p q], (A_refs a' k) as [|p' q']; cbn [snd A_sess];
    repeat match goal with |- context [drop_refs ?x ?y] => destruct (drop_refs x y); cbn [snd A_sess] end; reflexivity.
  Qed.
  Lemma effective_snoc h e : effective (h ++ [e]) = effective h ++ (if happened e then [fst e] else []).
  Proof. unfold effective. rewrite filter_app, map_app. cbn [filter]. now destruct (happened e). Qed.
  Lemma after_snoc h e d : after_all d (h ++ [e]) = after (after_all d h) e.
  Proof. unfold after_all. now rewrite fold_left_app. Qed.
  Lemma event_rel d a e : rel d a -> ok_event e -> exists a', rel (after d e) a' /\
    (happened e = false -> a' = a) /\ (happened e = true -> A_sess a' = A_sess (snd (astep a (fst e)))) /\
    (happened e = true -> is_remove (fst e) = false -> A_idx a' = A_idx (snd (astep a (fst e)))) /\
    (forall x v s, A_idx a' x v = Some s -> A_idx a x v = Some s \/ (happened e = true /\ fst e = Bind x v s)).
  Proof.
    intros R Ho. destruct e as [o [n|]]; unfold after, happened; cbn [fst snd].
    - destruct (cut_rel n d a o R Ho) as (a' & R' & [L1 L2 L3 L4 L5]). exists a'. split; [exact R'|]. destruct n as [|n].
      + split; [auto|]. split; [discriminate|]. split; [discriminate|]. intros x v s H. left. now rewrite <- (L1 eq_refl).
      + split; [discriminate|]. split; [intros; apply L2; lia|]. split; [intros; apply L3; [lia|assumption]|]. intros x v s H. destruct (L4 _ _ _ H) as [?|[_ ?]]; auto.
    - destruct (step_rel K HK d a o R Ho) as [_ R']. eexists. split; [exact R'|]. split; [discriminate|]. split; [reflexivity|]. split; [reflexivity|].
      intros x v s H. destruct (idx_step _ _ _ _ _ H); auto.
  Qed.
  Lemma history_rel h : Forall ok_event h -> exists a, rel (after_all [] h) a /\
    A_sess a = A_sess (snd (arun ainit (effective h))) /\
    (forallb (fun o => negb (is_remove o)) (effective h) = true -> forall x v, A_idx a x v = A_idx (snd (arun ainit (effective h))) x v) /\
    (forall x v s, A_idx a x v = Some s -> In (Bind x v s) (effective h)).
  Proof.
    induction h as [|e h IH] using rev_ind; intros F.
    - exists ainit. split; [apply rel_init|]. split; [reflexivity|]. split; [reflexivity|]. discriminate.
    - apply Forall_app in F. destruct F as [F1 F2]. inversion F2 as [|? ? Fe _]; subst. destruct (IH F1) as (a & R & S & X & P). rewrite after_snoc, effective_snoc.
      destruct (event_rel _ _ _ R Fe) as (a' & R' & E0 & E1 & E2 & E3). exists a'. split; [exact R'|].
      destruct (happened e) eqn:H.
      + rewrite !arun_snoc. split; [rewrite (E1 eq_refl); now apply sess_cong|]. split.
        * intros NR. rewrite forallb_app in NR. apply andb_true_iff in NR as [N1 N2]. cbn in N2. rewrite andb_true_r in N2. apply negb_true_iff in N2.
          intros x v. rewrite (E2 eq_refl N2). specialize (X N1). destruct (fst e) as [| |x' v' k'|]; cbn [astep snd A_idx]; auto; [|discriminate].
          unfold upd2. now rewrite X.
        * intros x v s Hx. apply in_or_app. destruct (E3 _ _ _ Hx) as [?|[_ ?]]; [left; auto|right; left; auto].
      + rewrite app_nil_r. rewrite (E0 eq_refl). auto.
  Qed.
  Lemma ops_effective h : Forall ok_event h -> Forall (op_ok K) (effective h).
  Proof. intros F. unfold effective. apply Forall_map. eapply incl_Forall; [|exact F]. intros x Hx. now apply filter_In in Hx. Qed.

  Lemma crash_items h : Forall ok_event h ->
    (forall k c t, K k -> t <> "iss" -> match latest_item (rev (effective h)) k t with
      | Some i => get_item (after_all [] h) c t k = msg_new c i
      | None => exists e, get_item (after_all [] h) c t k = Err (KeyError e) end) /\
    (forall k, K k -> match latest_iss (rev (effective h)) k with
      | Some i => get_iss (after_all [] h) k = Ok (VStr i)
      | None => exists e, get_iss (after_all [] h) k = Err (KeyError e) end).
  Proof.
    intros F. destruct (history_rel h F) as (a & R & S & _). split.
    - intros k c t Hk Ht. rewrite (get_item_rel K _ _ c t k R Hk Ht). pose proof (sess_latest (effective h) k) as L. rewrite S.
      destruct (A_sess (snd (arun ainit (effective h))) k) as [s|]; destruct L as [L _]; rewrite L; [|eauto]. destruct (latest_item _ k t); eauto.
    - intros k Hk. pose proof (get_iss_rel K _ _ k R Hk) as G. pose proof (sess_latest (effective h) k) as L. rewrite S in G.
      destruct (A_sess (snd (arun ainit (effective h))) k) as [[i its]|]; destruct L as [_ L]; [cbn [a_iss] in L; rewrite <- L; destruct i; exact G|rewrite L; exact G].
  Qed.
  Lemma crash_index h x v : Forall ok_event h -> In x kinds -> forallb (fun o => negb (is_remove o)) (effective h) = true ->
    get_state_by_x (after_all [] h) v x = match latest_bind (rev (effective h)) x v with Some k => Ok k | None => Err (KeyError v) end.
  Proof.
    intros F Hx NR. destruct (history_rel h F) as (a & R & _ & X & _). specialize (X NR). rewrite (get_by_x_rel K _ _ x v R Hx).
    - now rewrite X, idx_latest.
    - intros s Hs. rewrite X, idx_latest in Hs by assumption. apply (latest_bind_K K) in Hs; [now apply HK|]. apply Forall_rev. now apply ops_effective.
  Qed.
  Lemma crash_bound h x v k : Forall ok_event h -> In x kinds -> get_state_by_x (after_all [] h) v x = Ok k -> In (Bind x v k) (effective h).
  Proof.
    intros F Hx G. destruct (history_rel h F) as (a & R & _ & _ & P). apply P. destruct R as (_ & _ & _ & R4). rewrite <- (R4 x v Hx).
    unfold get_state_by_x in G. rewrite (index_key_ok x v Hx) in G. destruct (dget (idx x v) (after_all [] h)) as [s|]; [|discriminate].
    destruct (s =?s ""); congruence.
  Qed.

  (** ** doing the operation again *)
  Lemma rel_result d1 d2 a o : rel d1 a -> rel d2 a -> op_ok K o -> same_result (fst (cstep d1 o)) (fst (cstep d2 o)) /\
    rel (snd (cstep d1 o)) (snd (astep a o)) /\ rel (snd (cstep d2 o)) (snd (astep a o)).
  Proof.
    intros R1 R2 Ho. destruct (step_rel K HK d1 a o R1 Ho) as [A1 B1]. destruct (step_rel K HK d2 a o R2 Ho) as [A2 B2]. split; [|auto].
    revert A1 A2. generalize (fst (cstep d1 o)), (fst (cstep d2 o)), (fst (astep a o)). intros r1 r2 x. unfold out_agrees, same_result.
    destruct o, x; intros A1 A2; try contradiction; try (left; congruence); destruct A1 as [e1 ->], A2 as [e2 ->]; right; eauto.
  Qed.
  Lemma rel_indist d1 d2 a : rel d1 a -> rel d2 a -> indistinguishable K d1 d2.
  Proof.
    intros R1 R2 ops F. revert d1 d2 a R1 R2. induction F as [|o ops Ho F IH]; intros d1 d2 a R1 R2.
    - cbn [crun fst snd]. split; [constructor|]. cbv zeta. split; [|split].
      + intros k c t Hk Ht. now rewrite (get_item_rel K _ _ c t k R1 Hk Ht), (get_item_rel K _ _ c t k R2 Hk Ht).
      + intros k Hk. pose proof (get_iss_rel K _ _ k R1 Hk) as G1. pose proof (get_iss_rel K _ _ k R2 Hk) as G2.
        destruct (A_sess a k) as [[[i|] its]|]; [left; congruence| |]; destruct G1 as [e1 ->], G2 as [e2 ->]; right; eauto.
      + intros x v Hx. destruct R1 as (_ & _ & _ & X1), R2 as (_ & _ & _ & X2). unfold get_state_by_x. rewrite (index_key_ok x v Hx), X1, X2 by exact Hx. reflexivity.
    - destruct (rel_result d1 d2 a o R1 R2 Ho) as (S & B1 & B2). cbn [crun].
      destruct (cstep d1 o) as [r1 e1], (cstep d2 o) as [r2 e2]. cbn [fst snd] in S, B1, B2. specialize (IH e1 e2 _ B1 B2).
      destruct (crun e1 ops) as [rs1 f1], (crun e2 ops) as [rs2 f2]. cbn [fst snd] in *. destruct IH as [I1 I2]. split; [now constructor|exact I2].
  Qed.
  Lemma again h o n : Forall ok_event h -> op_ok K o -> is_remove o = false ->
    indistinguishable K (snd (cstep (cut n (after_all [] h) o) o)) (snd (cstep (after_all [] h) o)).
  Proof.
    intros F Ho NR. destruct (history_rel h F) as (a & R & _). destruct (cut_rel n _ a o R Ho) as (a' & R' & L).
    destruct (step_rel K HK _ _ o R' Ho) as [_ R1]. destruct (step_rel K HK _ _ o R Ho) as [_ R2].
    eapply rel_indist; [|exact R2]. eapply rel_ext; [exact R1|]. now apply L.
  Qed.
End Crash.

(** ** what the steps of a call write, also when the call is not completed *)
Definition crash_op (cl : client) (c0 : ctx) (o : call) (x : op) : Prop :=
  match o with
  | CFinalize W iss resp collect =>
      front_op rnd32 c0 (e_vrf W "authorization") resp x \/
      (exists s, token_op c0 (e_vrf W "accesstoken") s x \/ userinfo_op s x) \/ (exists y v s, (y = "subject id" \/ y = "session id") /\ x = Bind y v s)
  | _ => call_op cl c0 o x
  end.
Section CallCrash.
  Variable c0 : ctx.
  Local Notation writes := (P_Trace.writes rnd32 c0).
  Local Notation pwrites := (pwrites c0).
  Local Notation any := P_Trace.any.
  Local Notation F := rnd32_family.
  Local Notation N := rnd32_no_dict.
  Lemma cw_subject (P : op -> Prop) st idt info : rnd32 st -> (forall x v, (x = "subject id" \/ x = "session id") -> P (Bind x v st)) -> pwrites P (bind_subject_p idt info st) any.
  Proof.
    intros Hk HP.
    assert (B : forall x v, (x = "subject id" \/ x = "session id") -> In x kinds -> pwrites P (step (bind_value x v st)) any).
    { intros x v Hx Kx. apply pw_step. unfold bind_value. destruct v; try apply w_raise. apply w_bindx; auto. }
    assert (S : forall d, pwrites P (s <~ plift (dict_get "sub" d) ;; step (bind_value "subject id" s st)) any).
    { intros d. eapply pw_bind with (Q := any); [apply pw_lift; intros; exact I|]. intros s _. apply B; [auto|cbn; auto]. }
    unfold bind_subject_p. destruct idt as [| | | | |[|kv r]]; try apply S. cbv zeta.
    eapply pw_bind with (Q := any); [apply pw_step; now apply w_any_pure|]. intros c1 _.
    eapply pw_bind with (Q := any); [|intros _ _; apply S].
    destruct c1; [|exact I]. destruct (dget "sid" (kv :: r)); [|exact I]. apply B; [auto|cbn; auto].
  Qed.
  Lemma cw_finalize W cl iss resp collect : pwrites (crash_op cl c0 (CFinalize W iss resp collect)) (finalize_p W cl iss resp collect) any.
  Proof.
    unfold finalize_p. set (P := crash_op cl c0 (CFinalize W iss resp collect)).
    eapply pw_bind with (Q := fun m => is_error_message m = false -> forall s, dget "state" m = Some (VStr s) -> rnd32 s).
    { apply pw_step. intros c C r c' E. destruct (w_finalize_auth rnd32 F N c0 (e_vrf W "authorization") (e_now W) iss resp c C r c' E) as (A1 & (ops & A2 & A3) & _).
      split; [exact A1|]. split.
      - exists ops. split; [|exact A3]. eapply Forall_impl; [|exact A2]. cbn. intros x [X1 X2]. split; [exact X1|]. left. exact X2.
      - intros m -> Em s Es. pose proof (finalize_auth_spec _ _ _ _ _ _ _ E) as Y. cbn in Y. destruct Y as [[Y _]|[_ (s' & Y1 & Y2 & _)]]; [congruence|].
        rewrite Es in Y1. injection Y1 as <-. eapply closed_iss; [exact N|exact (proj1 C)|exact Y2]. }
    intros m Hm. cbn beta in Hm. destruct (is_error_message m) eqn:Ee.
    { eapply pw_bind with (Q := any); [apply pw_lift; intros; exact I|]. intros s _.
      eapply pw_bind with (Q := any); [apply pw_lift; intros; exact I|]. intros e _. exact I. }
    specialize (Hm eq_refl). destruct (dget "state" m) as [[| | |st| |]|]; try exact I. pose proof (Hm st eq_refl) as Hs. clear Hm.
    eapply pw_bind with (Q := any); [apply pwg_access; [exact Hs|]; intros o Ho; right; left; eauto|]. intros t _. eapply pw_bind with (Q := any).
    - destruct (_ && _).
      + destruct (t_access t); try exact I. eapply pw_bind with (Q := any); [apply pwg_user_info; [exact Hs|]; intros o Ho; right; left; eauto|]. intros r _. exact I.
      + destruct (t_id t) as [| | | | |[|? ?]]; exact I.
    - intros info _. eapply pw_bind with (Q := any); [apply cw_subject; [exact Hs|]; intros x v Hx; right; right; eauto|]. intros u _. exact I.
  Qed.
  Lemma cw_init W cl reqs beh : rnd32 (e_state W) -> plain_conf (conf_of cl "authorization") ->
    pwrites (init_op c0 (uses_nonce c0 W reqs) (e_state W)) (init_authorization_p W cl reqs beh) any.
  Proof. apply pw_init_op. Qed.
  Lemma cw_prog cl o : plain_client cl -> call_ok o -> pwrites (crash_op cl c0 o) (prog_of cl o) any.
  Proof.
    intros [PC1 PC2] O.
    assert (G : forall A (p : prog A) (f : A -> answer) Q, pwrites (crash_op cl c0 o) p Q -> pwrites (crash_op cl c0 o) (pmap f p) any).
    { intros A p f Q H. unfold pmap. eapply pw_bind; [exact H|]. intros a _. exact I. }
    destruct o as [W reqs beh|W iss resp collect|W iss resp|W st|W st scope|W st tok|W st uri|st]; cbn [prog_of call_ok] in *; eapply G.
    - now apply cw_init.
    - apply cw_finalize.
    - apply pw_step. apply (w_finalize_auth rnd32 F N).
    - apply pwg_get_tokens; [exact O|]. auto.
    - apply pwg_refresh; [exact O|]. auto.
    - apply pwg_user_info; [exact O|]. auto.
    - apply pw_step. apply (w_logout rnd32 F); [exact O|exact PC2].
    - apply pw_step. eapply w_remove; [exact O|reflexivity].
  Qed.
End CallCrash.

Section Lives.
  Variable cl : client.
  Hypothesis PC : plain_client cl.
  Variable c0 : ctx.
  Variable L : list call.
  Hypothesis OK : Forall call_ok L.
  (** the database comes from operations of these calls *)
  Definition comes (c : ctx) : Prop :=
    c = set_db (sdb c) c0 /\ exists ops, Forall (op_ok rnd32) ops /\ (forall x, In x ops -> exists o, In o L /\ crash_op cl c0 o x) /\ sdb c = snd (crun [] ops).
  Lemma comes_good c : comes c -> good rnd32 c0 c.
  Proof. intros (E & ops & O & _ & D). split; [|exact E]. rewrite D. eapply closed_run; [apply rnd32_family|apply closed_nil|exact O]. Qed.
  Lemma comes_play jobs all : incl (map jobs all) L -> forall l, incl l all -> forall s : pool * ctx, comes (snd s) ->
    (forall i, In i all -> pwrites c0 (crash_op cl c0 (jobs i)) (fst s i) P_Trace.any) -> comes (snd (play l s)).
  Proof.
    intros IL. induction l as [|i l IH]; intros Hl s C W; [exact C|]. assert (Hi : In i all) by (apply Hl; now left).
    cbn [play fold_left]. apply IH; [intros x Hx; apply Hl; now right| |]; unfold move; destruct (fst s i) as [r|T m k] eqn:Ei; auto.
    - pose proof (W i Hi) as Wi. rewrite Ei in Wi. destruct Wi as (Q & W1 & _). destruct (m (snd s)) as [r c'] eqn:Em. cbn [snd].
      destruct (W1 _ (comes_good _ C) _ _ Em) as (B1 & (ops & B2 & B3) & _). destruct C as (C1 & ops0 & C2 & C3 & C4). split.
      + rewrite B1 at 1. rewrite C1. reflexivity.
      + exists (ops0 ++ ops). split; [apply Forall_app; split; [exact C2|]; eapply Forall_impl; [|exact B2]; cbn; tauto|]. split.
        * intros x Hx. apply in_app_or in Hx. destruct Hx as [Hx|Hx]; [auto|]. rewrite Forall_forall in B2. exists (jobs i). split; [apply IL, in_map, Hi|]. now apply B2.
        * rewrite crun_app, B3, C4. reflexivity.
    - intros j Hj. pose proof (W i Hi) as Wi. rewrite Ei in Wi. destruct Wi as (Q & W1 & W2). destruct (m (snd s)) as [r c'] eqn:Em. cbn [fst].
      destruct (W1 _ (comes_good _ C) _ _ Em) as (_ & _ & B4). destruct (Nat.eq_dec j i) as [->|Nj]; [|rewrite put_neq by exact Nj; auto].
      rewrite put_eq. destruct r as [x|e]; [|exact I]. auto.
  Qed.
  Lemma comes_live l c : incl (map (fst l) (snd l)) L -> comes c -> comes (snd (live cl c l)).
  Proof.
    intros IL C. unfold live. apply (comes_play (fst l) (snd l) IL); [apply incl_refl|exact C|]. intros i Hi. cbn [fst]. unfold start. apply cw_prog; [exact PC|].
    rewrite Forall_forall in OK. apply OK, IL, in_map, Hi.
  Qed.
  Lemma comes_restart c : comes c -> comes (restarted c0 c).
  Proof. intros (C1 & C2). unfold restarted. rewrite <- C1. split; auto. Qed.
  Lemma comes_lives ls : incl (calls_in ls) L -> forall c, comes c -> comes (snd (lives cl c0 c ls)).
  Proof.
    induction ls as [|l ls IH]; intros IL c C; [exact C|]. unfold calls_in in IL. cbn [flat_map] in IL. apply incl_app_inv in IL. destruct IL as [I1 I2]. cbn [lives].
    specialize (IH I2 _ (comes_restart _ (comes_live l c I1 C))). destruct (lives cl c0 (restarted c0 (snd (live cl c l))) ls) as [ps c']. exact IH.
  Qed.
  Lemma comes_start : sdb c0 = [] -> comes c0.
  Proof. intros E. split; [symmetry; apply set_db_same|]. exists []. split; [constructor|]. split; [contradiction|]. exact E. Qed.
  Ltac no C := exfalso; cbn in C; unfold front_op, authz_op, token_op, userinfo_op, refresh_op, logout_op in C;
    repeat match type of C with
      | _ \/ _ => destruct C as [C|C]
      | exists _, _ => destruct C as [? C]
      | _ /\ _ => let X := fresh in destruct C as [X C]; try discriminate X
      end; try discriminate; try (destruct C; discriminate).
  Lemma comes_session c k i : comes c -> get_iss (sdb c) k = Ok i -> i = VStr (issuer c0) /\ exists W reqs beh, In (CInit W reqs beh) L /\ e_state W = k.
  Proof.
    intros C H. pose proof (proj1 (comes_good c C)) as CL. destruct C as (_ & ops & O1 & O2 & O3).
    assert (K : rnd32 k) by (eapply closed_iss; [apply rnd32_no_dict|exact CL|exact H]). rewrite O3 in H.
    destruct (store_observations rnd32 ops rnd32_family O1) as [_ S]. specialize (S k K).
    destruct (latest_iss (rev ops) k) as [j|] eqn:El; [|destruct S as [e S]; rewrite H in S; discriminate].
    destruct (latest_iss_create _ _ _ El) as (rnd & key & A & B). apply in_rev in A.
    destruct (O2 _ A) as (o & I & C). destruct o; [|no C..].
    cbn in C. destruct C as [C1 C2]. rewrite H in S. split; [congruence|]. exists W, reqs, beh. split; [assumption|]. congruence.
  Qed.
  Lemma comes_nonce c n k : comes c -> get_state_by_nonce (sdb c) n = Ok k -> exists W reqs beh, In (CInit W reqs beh) L /\ e_state W = k /\ uses_nonce c0 W reqs n.
  Proof.
    intros (_ & ops & O1 & O2 & O3) H. rewrite O3 in H. apply (bind_provenance rnd32) in H; [|apply rnd32_family|assumption|apply in_nonce].
    destruct (O2 _ H) as (o & I & C). destruct o; [|no C..].
    - cbn in C. destruct C as (-> & _ & C). exists W, reqs, beh. auto.
    - injection C as E _ _. repeat match goal with X : _ = _ \/ _ = _ |- _ => destruct X as [X|X] end; congruence.
  Qed.
  Lemma comes_logout c n k : comes c -> get_state_by_logout_state (sdb c) n = Ok k -> exists W uri, In (CLogout W k uri) L.
  Proof.
    intros (_ & ops & O1 & O2 & O3) H. rewrite O3 in H. apply (bind_provenance rnd32) in H; [|apply rnd32_family|assumption|apply in_logout].
    destruct (O2 _ H) as (o & I & C). destruct o; try (now no C).
    - no C. injection C as E _ _. repeat match goal with X : _ = _ \/ _ = _ |- _ => destruct X as [X|X] end; congruence.
    - cbn in C. destruct C as (v & D). injection D as <- <-. eauto.
  Qed.
  Lemma comes_accepted c vrf now iss response m c' : comes c -> finalize_auth vrf now iss response c = (Ok m, c') -> is_error_message m = false ->
    iss = issuer c0 /\ exists W reqs beh, In (CInit W reqs beh) L /\ dget "state" m = Some (VStr (e_state W)).
  Proof.
    intros C H NE. pose proof (finalize_auth_spec _ _ _ _ _ _ _ H) as S. cbn in S.
    destruct S as [[S _]|(_ & s & S1 & S2 & _)]; [congruence|].
    destruct (comes_session c s _ C S2) as (E & W & reqs & beh & I & <-). split; [congruence|]. eauto.
  Qed.
End Lives.

(** ** the other sessions *)
Section LivesAlone.
  Variable k : string.
  Hypothesis Hk : rnd32 k.
  Variable c0 : ctx.
  Variable cl : client.
  Hypothesis PC : plain_client cl.
  Variable L : list call.
  Hypothesis SC : schedule c0 k L.
  Local Notation ns := (nonces_of c0 k L).
  Local Notation RC := (P_Sched.Rc k c0).
  Lemma restart_rel c1 c2 : RC c1 c2 -> RC (restarted c0 c1) (restarted c0 c2).
  Proof. intros (R & E1 & E2). unfold restarted. rewrite <- E1, <- E2. split; auto. Qed.
  Lemma restart_inv c : Inv k ns (sdb c) -> Inv k ns (sdb (restarted c0 c)).
  Proof. intros H. exact H. Qed.
  Lemma lives_rel ls : incl (calls_in ls) L -> forall c1 c2, RC c1 c2 -> Inv k ns (sdb c1) ->
    RC (snd (lives cl c0 c1 ls)) (snd (lives cl c0 c2 (only k ls))) /\
    forall j l, nth_error ls j = Some l -> exists p q,
      nth_error (fst (lives cl c0 c1 ls)) j = Some p /\ nth_error (fst (lives cl c0 c2 (only k ls))) j = Some q /\
      forall i, about k (fst l i) = true -> same_progress (p i) (q i).
  Proof.
    induction ls as [|l ls IH]; intros IL c1 c2 R I.
    - split; [exact R|]. intros [|j] l H; discriminate.
    - unfold calls_in in IL. cbn [flat_map] in IL. apply incl_app_inv in IL. destruct IL as [I1 I2].
      pose proof (rel_play k Hk c0 (fst l) (snd l) L SC I1 (snd l) (incl_refl _) _ _ (rel_start k Hk c0 cl PC (fst l) (snd l) L SC I1 c1 c2 R I)) as [A1 A2 A3 _ _].
      cbn [lives only map]. specialize (IH I2 _ _ (restart_rel _ _ A1) (restart_inv _ A2)). fold (only k ls).
      unfold live. cbn [fst snd] in *.
      destruct (play (snd l) (start cl (fst l), c1)) as [p1 d1], (play (moves_of k (fst l) (snd l)) (start cl (fst l), c2)) as [p2 d2]. cbn [fst snd] in *.
      destruct (lives cl c0 (restarted c0 d1) ls) as [ps1 e1], (lives cl c0 (restarted c0 d2) (only k ls)) as [ps2 e2]. cbn [fst snd] in *.
      destruct IH as [IH1 IH2]. split; [exact IH1|]. intros [|j] l' H; [|apply (IH2 j l' H)]. injection H as <-. exists p1, p2. split; [reflexivity|]. split; [reflexivity|].
      intros i Hi. destruct (A3 i Hi) as [->|(x & y & -> & ->)]; unfold same_progress; cbn.
      + destruct (outcome (p2 i)); [now left|exact Logic.I].
      + right. eauto.
  Qed.
End LivesAlone.
