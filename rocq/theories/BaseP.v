(** Facts about the vocabulary of Base.v *)
From Verif Require Import Base.

Lemma eqb_true_iff a b : (a =?s b) = true <-> a = b.
Proof. apply String.eqb_eq. Qed.
Lemma eqb_refl a : (a =?s a) = true.
Proof. apply String.eqb_refl. Qed.
Lemma eqb_neq a b : a <> b -> (a =?s b) = false.
Proof. apply String.eqb_neq. Qed.
Lemma eqb_sym a b : (a =?s b) = (b =?s a).
Proof. apply String.eqb_sym. Qed.
#[export] Hint Rewrite eqb_refl : core.

Ltac eqs_cases :=
  match goal with
  | |- context [?a =?s ?b] => destruct (String.eqb_spec a b)
  | H : context [?a =?s ?b] |- _ => destruct (String.eqb_spec a b)
  end.

(** ** dictionaries *)
Section D.
  Context {A : Type}.
  Implicit Types (d e : dict A).

  Lemma dget_dset_eq k (v : A) d : dget k (dset k v d) = Some v.
  Proof.
    induction d as [|[k' v'] r IH]; simpl; [now rewrite eqb_refl|].
    destruct (String.eqb_spec k' k); simpl.
    - subst. now rewrite eqb_refl.
    - rewrite eqb_neq by assumption. exact IH.
  Qed.
  Lemma dget_dset_neq k k' (v : A) d : k <> k' -> dget k' (dset k v d) = dget k' d.
  Proof.
    intros N. induction d as [|[k2 v'] r IH]; simpl; [now rewrite eqb_neq|].
    destruct (String.eqb_spec k2 k); simpl.
    - subst. now rewrite eqb_neq.
    - now rewrite IH.
  Qed.
  Lemma dget_dset k k' (v : A) d :
    dget k' (dset k v d) = if k =?s k' then Some v else dget k' d.
  Proof.
    destruct (String.eqb_spec k k'); [subst; apply dget_dset_eq|now apply dget_dset_neq].
  Qed.
  Lemma dget_ddel k k' d :
    dget k' (ddel k d) = if k =?s k' then None else dget k' d.
  Proof.
    induction d as [|[k2 v'] r IH]; simpl; [now destruct (k =?s k')|].
    destruct (String.eqb_spec k2 k); simpl.
    - subst. rewrite IH. destruct (k =?s k'); reflexivity.
    - rewrite IH. destruct (String.eqb_spec k k'); [subst; now rewrite eqb_neq|reflexivity].
  Qed.
  Lemma dget_ddel_eq k d : dget k (ddel k d) = None.
  Proof. now rewrite dget_ddel, eqb_refl. Qed.
  Lemma dget_ddel_neq k k' d : k <> k' -> dget k' (ddel k d) = dget k' d.
  Proof. intros N. now rewrite dget_ddel, eqb_neq. Qed.
  Lemma dhas_dset k k' (v : A) d : dhas k' (dset k v d) = (k =?s k') || dhas k' d.
  Proof. unfold dhas. rewrite dget_dset. now destruct (k =?s k'). Qed.
  Lemma dhas_ddel k k' d : dhas k' (ddel k d) = negb (k =?s k') && dhas k' d.
  Proof. unfold dhas. rewrite dget_ddel. now destruct (k =?s k'). Qed.
  Lemma dget_In k (v : A) d : dget k d = Some v -> In (k, v) d.
  Proof.
    induction d as [|[k' v'] r IH]; simpl; [discriminate|].
    destruct (String.eqb_spec k' k); [intros [= ->]; subst; now left|right; auto].
  Qed.
  Lemma dhas_In k d : dhas k d = true <-> In k (dkeys d).
  Proof.
    unfold dhas, dkeys. induction d as [|[k' v'] r IH]; simpl; [split; easy|].
    destruct (String.eqb_spec k' k); [split; auto|].
    rewrite IH. split; [auto|]. intros [H|H]; [contradiction|assumption].
  Qed.
  Lemma dget_None_In k d : dget k d = None <-> ~ In k (dkeys d).
  Proof.
    rewrite <- dhas_In. unfold dhas. destruct (dget k d); split; try easy.
  Qed.
  Lemma dget_app k d e : dget k (d ++ e) = match dget k d with Some v => Some v | None => dget k e end.
  Proof.
    induction d as [|[k' v'] r IH]; simpl; [reflexivity|]. destruct (k' =?s k); auto.
  Qed.
  (** the last binding wins in an update *)
  Lemma dget_dupdate k e : forall d,
    dget k (dupdate d e) = match dget k (rev e) with Some v => Some v | None => dget k d end.
  Proof.
    unfold dupdate. induction e as [|[k' v'] r IH]; intros d; simpl; [reflexivity|].
    rewrite IH, dget_app. destruct (dget k (rev r)); [reflexivity|]. simpl.
    rewrite dget_dset. now destruct (k' =?s k).
  Qed.
  Lemma dget_rev_NoDup k d : NoDup (dkeys d) -> dget k (rev d) = dget k d.
  Proof.
    induction d as [|[k' v'] r IH]; simpl; [reflexivity|]. intros H. inversion H; subst.
    rewrite dget_app, IH by assumption. simpl.
    destruct (String.eqb_spec k' k).
    - subst. apply dget_None_In in H2. now rewrite H2.
    - now destruct (dget k r).
  Qed.
  Lemma dget_dupdate_NoDup k d e : NoDup (dkeys e) ->
    dget k (dupdate d e) = match dget k e with Some v => Some v | None => dget k d end.
  Proof. intros H. now rewrite dget_dupdate, dget_rev_NoDup. Qed.
  Lemma dkeys_dset k (v : A) d :
    dkeys (dset k v d) = if dhas k d then dkeys d else dkeys d ++ [k].
  Proof.
    unfold dkeys, dhas. induction d as [|[k' v'] r IH]; simpl; [reflexivity|].
    destruct (String.eqb_spec k' k); simpl; [subst; reflexivity|].
    rewrite IH. now destruct (dget k r).
  Qed.
  Lemma NoDup_dset k (v : A) d : NoDup (dkeys d) -> NoDup (dkeys (dset k v d)).
  Proof.
    intros H. rewrite dkeys_dset. destruct (dhas k d) eqn:E; [assumption|].
    apply NoDup_remove_1 with (a:=k) (l:=dkeys d) (l':=[]) || idtac.
    rewrite <- (rev_involutive (dkeys d ++ [k])). apply NoDup_rev. rewrite rev_app_distr. simpl.
    constructor.
    - rewrite <- in_rev. intros C. apply dhas_In in C. congruence.
    - now apply NoDup_rev.
  Qed.
  Lemma In_ddel k x d : In x (ddel k d) -> In x d.
  Proof.
    induction d as [|[k' v'] r IH]; simpl; [easy|]. destruct (k' =?s k); simpl; intuition.
  Qed.
  Lemma NoDup_ddel k d : NoDup (dkeys d) -> NoDup (dkeys (ddel k d)).
  Proof.
    unfold dkeys. induction d as [|[k' v'] r IH]; simpl; [easy|]. intros H. inversion H; subst.
    destruct (k' =?s k); simpl; [auto|]. constructor; [|auto].
    intros C. apply H2. apply in_map_iff in C as [[a b] [Ha Hb]]. simpl in Ha; subst.
    apply In_ddel in Hb. apply in_map_iff. exists (k', b). auto.
  Qed.
  Lemma NoDup_dupdate e : forall d, NoDup (dkeys d) -> NoDup (dkeys (dupdate d e)).
  Proof.
    unfold dupdate. induction e as [|[k v] r IH]; intros d H; simpl; [assumption|].
    apply IH. now apply NoDup_dset.
  Qed.
End D.

(** ** strings *)
Lemma sl_la s : sl (la s) = s.
Proof. induction s; simpl; congruence. Qed.
Lemma la_sl l : la (sl l) = l.
Proof. induction l; simpl; congruence. Qed.
Lemma la_app a b : la (a ++ b)%string = la a ++ la b.
Proof. induction a; simpl; congruence. Qed.
Lemma sl_app a b : sl (a ++ b) = (sl a ++ sl b)%string.
Proof. induction a; simpl; congruence. Qed.
Lemma la_inj a b : la a = la b -> a = b.
Proof. intros H. rewrite <- (sl_la a), <- (sl_la b). now rewrite H. Qed.
Lemma length_la s : length (la s) = String.length s.
Proof. induction s; simpl; congruence. Qed.
Lemma sapp_assoc (a b c : string) : ((a ++ b) ++ c = a ++ b ++ c)%string.
Proof. induction a; simpl; congruence. Qed.
Lemma sapp_nil (a : string) : (a ++ "" = a)%string.
Proof. induction a; simpl; congruence. Qed.
Lemma slength_app (a b : string) : String.length (a ++ b) = String.length a + String.length b.
Proof. induction a; simpl; congruence. Qed.
Lemma sapp_inj_l (a b c : string) : (a ++ b = a ++ c)%string -> b = c.
Proof. induction a; simpl; [easy|]. intros [= H]. auto. Qed.
Lemma sapp_inj_r (a b c : string) : (a ++ c = b ++ c)%string -> a = b.
Proof.
  intros H. apply (f_equal la) in H. rewrite !la_app in H. apply app_inv_tail in H. now apply la_inj.
Qed.
Lemma starts_with_app p s : starts_with p (p ++ s)%string = true.
Proof. induction p; simpl; [reflexivity|]. now rewrite Ascii.eqb_refl. Qed.
Lemma starts_with_inv p s : starts_with p s = true -> s = (p ++ drop (String.length p) s)%string.
Proof.
  revert s. induction p as [|a p IH]; intros s H; simpl; [reflexivity|].
  destruct s as [|b s]; simpl in H; [discriminate|].
  apply andb_true_iff in H as [H1 H2]. apply Ascii.eqb_eq in H1; subst. simpl. now rewrite <- IH.
Qed.
Lemma starts_with_iff p s : starts_with p s = true <-> exists t, s = (p ++ t)%string.
Proof.
  split; [intros H; eexists; now apply starts_with_inv|]. intros [t ->]. apply starts_with_app.
Qed.
Lemma drop_app p s : drop (String.length p) (p ++ s)%string = s.
Proof. induction p; simpl; auto. Qed.
Lemma srev_app a b : srev (a ++ b)%string = (srev b ++ srev a)%string.
Proof. unfold srev. now rewrite la_app, rev_app_distr, sl_app. Qed.
Lemma srev_inv a : srev (srev a) = a.
Proof. unfold srev. now rewrite la_sl, rev_involutive, sl_la. Qed.
Lemma ends_with_iff p s : ends_with p s = true <-> exists t, s = (t ++ p)%string.
Proof.
  unfold ends_with. rewrite starts_with_iff. split.
  - intros [t H]. exists (srev t). apply (f_equal srev) in H. now rewrite srev_app, !srev_inv in H.
  - intros [t ->]. exists (srev t). now rewrite srev_app.
Qed.
Lemma contains_iff sub s : contains sub s = true <-> exists a b, s = (a ++ sub ++ b)%string.
Proof.
  induction s as [|c s IH]; simpl.
  - rewrite orb_false_r. rewrite starts_with_iff. split.
    + intros [t H]. exists "", t. exact H.
    + intros (a & b & H). destruct a; simpl in H; [|discriminate]. now exists b.
  - rewrite orb_true_iff, IH, starts_with_iff. split.
    + intros [[t ->]|(a & b & ->)]; [now exists "", t|now exists (String c a), b].
    + intros (a & b & H). destruct a as [|x a]; simpl in H; [left; now exists b|].
      injection H as -> ->. right. now exists a, b.
Qed.
Lemma all_chars_app f a b : all_chars f (a ++ b)%string = all_chars f a && all_chars f b.
Proof. induction a; simpl; [reflexivity|]. rewrite IHa. now rewrite andb_assoc. Qed.
Lemma char_in_app c a b : char_in c (a ++ b)%string = char_in c a || char_in c b.
Proof. induction a; simpl; [reflexivity|]. rewrite IHa. now rewrite orb_assoc. Qed.
Lemma char_in_In c s : char_in c s = true <-> In c (la s).
Proof.
  induction s; simpl; [easy|]. rewrite orb_true_iff, IHs, Ascii.eqb_eq. intuition.
Qed.

Lemma split_on_nonnil c s : split_on c s <> [].
Proof. destruct s; simpl; [easy|]. destruct (Ascii.eqb a c); [easy|]. now destruct (split_on c s). Qed.
Lemma split_on_nosep c s : char_in c s = false -> split_on c s = [s].
Proof.
  induction s as [|a s IH]; simpl; [reflexivity|]. rewrite orb_false_iff. intros [H1 H2].
  rewrite Ascii.eqb_sym, H1, IH by assumption. reflexivity.
Qed.
Lemma split_on_cons c w s : char_in c w = false ->
  split_on c (w ++ String c s)%string = w :: split_on c s.
Proof.
  induction w as [|a w IH]; simpl.
  - intros _. now rewrite Ascii.eqb_refl.
  - rewrite orb_false_iff. intros [H1 H2]. rewrite Ascii.eqb_sym, H1, IH by assumption. reflexivity.
Qed.
Lemma split_on_app2 c a b : split_on c (a ++ String c b)%string = split_on c a ++ split_on c b.
Proof.
  induction a as [|x a IH]; simpl; [now rewrite Ascii.eqb_refl|].
  destruct (Ascii.eqb x c); [now rewrite IH|]. rewrite IH.
  destruct (split_on c a) eqn:E; [now apply split_on_nonnil in E|reflexivity].
Qed.
Lemma split_join c ws : ws <> [] -> forallb (fun w => negb (char_in c w)) ws = true ->
  split_on c (join (String c "") ws) = ws.
Proof.
  induction ws as [|w r IH]; [easy|]. intros _ H. simpl in H.
  apply andb_true_iff in H as [H1 H2]. apply negb_true_iff in H1.
  destruct r as [|w2 r]; [now apply split_on_nosep|].
  change (join (String c "") (w :: w2 :: r)) with (w ++ String c (join (String c "") (w2 :: r)))%string.
  rewrite split_on_cons by assumption. now rewrite IH.
Qed.
Lemma join_split c s : join (String c "") (split_on c s) = s.
Proof.
  induction s as [|a s IH]; simpl; [reflexivity|].
  destruct (Ascii.eqb_spec a c).
  - subst. destruct (split_on c s) eqn:E; [now apply split_on_nonnil in E|].
    change (join (String c "") ("" :: s0 :: l)) with (String c (join (String c "") (s0 :: l))). now rewrite IH.
  - destruct (split_on c s) as [|w ws] eqn:E; [now apply split_on_nonnil in E|].
    destruct ws; simpl in *; now rewrite IH.
Qed.
Lemma split1_Some c s a b : split1 c s = Some (a, b) <-> s = (a ++ String c b)%string /\ char_in c a = false.
Proof.
  revert a b. induction s as [|x s IH]; intros a b; simpl.
  - split; [discriminate|]. intros [H _]. now destruct a.
  - destruct (Ascii.eqb_spec x c).
    + subst. split.
      * intros [= <- <-]. auto.
      * intros [H Hc]. destruct a; simpl in *; [now injection H as ->|].
        injection H as -> ->. rewrite Ascii.eqb_refl in Hc. discriminate.
    + split.
      * destruct (split1 c s) as [[u v]|] eqn:E; [|discriminate]. intros [= <- <-].
        destruct (proj1 (IH u v) eq_refl) as [-> Hc]. simpl. split; [reflexivity|]. rewrite Hc, orb_false_r.
        apply Ascii.eqb_neq. congruence.
      * intros [H Hc]. destruct a as [|y a]; simpl in *; [injection H as -> ->; now elim n|].
        injection H as -> ->. apply orb_false_iff in Hc as [H1 H2].
        replace (split1 c (a ++ String c b)) with (Some (a, b)); [reflexivity|].
        symmetry. now apply IH.
Qed.
Lemma split1_None c s : split1 c s = None <-> char_in c s = false.
Proof.
  induction s as [|x s IH]; simpl; [easy|]. rewrite orb_false_iff, Ascii.eqb_sym.
  destruct (Ascii.eqb c x); [easy|]. rewrite <- IH.
  destruct (split1 c s) as [[? ?]|]; intuition; discriminate.
Qed.
Lemma mem_str_In x l : mem_str x l = true <-> In x l.
Proof.
  unfold mem_str. rewrite existsb_exists. split; [|intros H; exists x; split; [assumption|apply eqb_refl]].
  intros (y & H1 & H2). apply String.eqb_eq in H2. now subst.
Qed.

(** ** values *)
Fixpoint vsize (v : val) : nat :=
  match v with
  | VList l => S (fold_right (fun x a => vsize x + a) 0 l)
  | VDict d => S (fold_right (fun kx a => S (vsize (snd kx)) + a) 0 d)
  | _ => 1
  end.
Lemma val_ind2 (P : val -> Prop) :
  P VNone -> (forall b, P (VBool b)) -> (forall z, P (VInt z)) -> (forall s, P (VStr s)) ->
  (forall l, Forall P l -> P (VList l)) ->
  (forall d, Forall (fun kv => P (snd kv)) d -> P (VDict d)) ->
  forall v, P v.
Proof.
  intros H1 H2 H3 H4 H5 H6. fix IH 1. intros [| | | |l|d]; [exact H1|apply H2|apply H3|apply H4| |].
  - apply H5. induction l; constructor; auto.
  - apply H6. induction d; constructor; auto.
Qed.
Lemma val_eqb_eq a : forall b, val_eqb a b = true <-> a = b.
Proof.
  induction a as [| | | |l H|d H] using val_ind2; intros [| | | |m|m]; simpl;
    try (split; intros E; discriminate E); try tauto.
  - rewrite Bool.eqb_true_iff. split; congruence.
  - rewrite Z.eqb_eq. split; congruence.
  - rewrite String.eqb_eq. split; congruence.
  - transitivity (l = m); [|split; congruence]. revert m. induction H as [|x l Hx Hl IH]; intros [|y m]; try (split; easy).
    rewrite andb_true_iff, Hx, IH. split; [intros [-> ->]|intros [= -> ->]]; auto.
  - transitivity (d = m); [|split; congruence]. revert m. induction H as [|[k x] l Hx Hl IH]; intros [|[k' y] m]; try (split; easy).
    rewrite !andb_true_iff, String.eqb_eq, IH. simpl in Hx. rewrite Hx.
    split; [intros [[-> ->] ->]|intros [= -> -> ->]]; auto.
Qed.
