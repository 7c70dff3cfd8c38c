(** Lemmas about the session store on arbitrary databases, and about the monad. *)
From Verif Require Import Base BaseP Json JsonP Msg M_State S_State P_State M_Ctx.

(** ** case analysis *)
Ltac dm :=
  match goal with
  | |- context [match ?x with _ => _ end] => destruct x eqn:?
  end.
Ltac dmH H :=
  match type of H with
  | context [match ?x with _ => _ end] => destruct x eqn:?
  end.
Ltac inv H := inversion H; subst; clear H.
(** break a hypothesis [m c = (r, c')] completely *)
Ltac minv H :=
  unfold bind, ret, raise, asks, lift, on_db, read_db in H;
  repeat (dmH H; try discriminate H).

Lemma set_db_same c : set_db (sdb c) c = c.
Proof. now destruct c. Qed.
Lemma sdb_set d c : sdb (set_db d c) = d.
Proof. reflexivity. Qed.
Lemma set_db_set d d' c : set_db d (set_db d' c) = set_db d c.
Proof. reflexivity. Qed.

(** ** texts in the database always load to well-formed sessions *)
Lemma wf_empty : wf_state [].
Proof. split; constructor. Qed.
Lemma wf_state_dset m k v : wf_state m -> (mem_str k state_json_params = true \/ skipped v = false) ->
  wf_state (dset k v m).
Proof.
  intros [H1 H2] Hv. split; [now apply NoDup_dset|].
  clear H1. induction H2 as [|[k' v'] r Hx Hr IH]; cbn [dset]; [constructor; [exact Hv|constructor]|].
  destruct (String.eqb_spec k' k); [subst; constructor; auto|constructor; auto].
Qed.
Lemma msg_set_wf k v m m' : skipped v = false -> wf_state m -> msg_set cState k v m = Ok m' -> wf_state m'.
Proof.
  unfold msg_set. intros Hs Hm H. cbn [cState c_json c_sp] in H.
  destruct (mem_str k state_json_params) eqn:E.
  - destruct v; try discriminate; repeat (dmH H; try discriminate); injection H as <-;
      apply wf_state_dset; auto.
  - simpl in H. injection H as <-. apply wf_state_dset; auto.
Qed.
Lemma from_dict_wf d : forall m m', wf_state m -> msg_from_dict cState d m = Ok m' -> wf_state m'.
Proof.
  induction d as [|[k v] d IH]; intros m m' Hm H; simpl in H; [now injection H as <-|].
  destruct (skipped v) eqn:Es; [eauto|]. destruct (msg_set cState k v m) eqn:E; [|discriminate].
  eapply IH; [|exact H]. eapply msg_set_wf; eauto.
Qed.
Lemma get_state_wf d k s : get_state d k = Ok s -> wf_state s.
Proof.
  unfold get_state. destruct (dget k d); [|discriminate]. destruct (s0 =?s ""); [discriminate|].
  unfold msg_from_json. destruct (json_loads s0) as [[]|]; try discriminate.
  intros H. eapply from_dict_wf; [|exact H]. apply wf_empty.
Qed.

(** the session before a store: what is there, or an empty one *)
Definition old_state (d : db) (k : string) : option msg :=
  match get_state d k with Ok s => Some s | Err (KeyError _) => Some [] | Err _ => None end.
Lemma get_state_text d k m : wf_state m -> dget k d = Some (msg_to_json cState m) -> get_state d k = Ok m.
Proof.
  intros Hw H. unfold get_state. rewrite H.
  assert (E : (msg_to_json cState m =?s "") = false).
  { unfold msg_to_json. destruct (json_dumps_nonempty (VDict (msg_to_dict cState m))) as (c & r & ->). reflexivity. }
  rewrite E. now apply state_roundtrip.
Qed.
Lemma store_item_spec d k t c m s :
  old_state d k = Some s ->
  let s' := dset t (item_val t (msg_to_dict c m)) s in
  let d' := dset k (msg_to_json cState s') d in
  store_item (IMsg c m) t k d = (Ok tt, d') /\ get_state d' k = Ok s'.
Proof.
  intros H s' d'.
  assert (Hw : wf_state s).
  { unfold old_state in H. destruct (get_state d k) as [x|e] eqn:E.
    - injection H as <-. eapply get_state_wf; eauto.
    - destruct e; try discriminate. injection H as <-. apply wf_empty. }
  assert (Hs' : wf_state s').
  { apply wf_state_dset; [assumption|]. unfold item_val. destruct (mem_str t state_json_params); [auto|].
    right. apply skipped_dumps. }
  split.
  - unfold store_item, old_state in *.
    assert (E : match get_state d k with Ok s0 => Ok s0 | Err (KeyError _) => Ok [] | Err e => Err e end = Ok s).
    { destruct (get_state d k) as [x|e]; [congruence|]. destruct e; try discriminate H; now injection H as <-. }
    rewrite E. unfold msg_set. cbn [cState c_json c_sp].
    destruct (mem_str t state_json_params) eqn:Et.
    + unfold msg_to_json at 1. rewrite json_roundtrip. unfold d', s', item_val. rewrite Et. reflexivity.
    + simpl. unfold d', s', item_val. rewrite Et. reflexivity.
  - apply get_state_text; [assumption|]. unfold d'. apply dget_dset_eq.
Qed.
Lemma store_item_err d k t c m : old_state d k = None ->
  exists e, store_item (IMsg c m) t k d = (Err e, d).
Proof.
  unfold old_state, store_item. destruct (get_state d k) as [|[]]; try discriminate; eauto.
Qed.
Lemma item_val_read d c t k i s : get_state d k = Ok s -> dget t s = Some (item_val t i) ->
  get_item d c t k = msg_new c i.
Proof.
  intros H1 H2. unfold get_item. rewrite H1, H2. unfold item_val. destruct (mem_str t state_json_params); [reflexivity|].
  unfold msg_from_json. rewrite json_roundtrip. reflexivity.
Qed.
(** what a successful store does, in observable terms *)
Lemma store_item_effect c m t k d r d' : store_item (IMsg c m) t k d = (r, d') ->
  match r with
  | Err _ => d' = d
  | Ok _ =>
      (forall cc, get_item d' cc t k = msg_new cc (msg_to_dict c m)) /\
      (forall cc t', t' <> t -> (exists s, get_state d k = Ok s) -> get_item d' cc t' k = get_item d cc t' k) /\
      (t <> "iss" -> forall i, get_iss d k = Ok i -> get_iss d' k = Ok i) /\
      (forall k', k' <> k -> dget k' d' = dget k' d)
  end.
Proof.
  intros H. destruct (old_state d k) as [s|] eqn:E.
  - destruct (store_item_spec d k t c m s E) as [H1 H2]. rewrite H1 in H. inversion H; subst; clear H.
    split; [|split; [|split]].
    + intros cc. eapply item_val_read; [exact H2|]. apply dget_dset_eq.
    + intros cc t' Ht [s0 Hs]. unfold get_item. rewrite H2. unfold old_state in E. rewrite Hs in *.
      injection E as ->. rewrite dget_dset_neq by (intros C; subst; apply Ht; reflexivity). reflexivity.
    + intros Ht i Hi. unfold get_iss in *. rewrite H2. unfold old_state in E.
      destruct (get_state d k) as [s0|]; [|discriminate]. injection E as ->.
      destruct s as [|p s]; [discriminate|].
      destruct (dset t (item_val t (msg_to_dict c m)) (p :: s)) as [|q u] eqn:Q.
      * destruct p. simpl in Q. destruct (s0 =?s t); discriminate.
      * rewrite <- Q. unfold dict_get in *. rewrite dget_dset_neq by assumption. exact Hi.
    + intros k' Hk. apply dget_dset_neq. intros C; apply Hk; now symmetry.
  - destruct (store_item_err d k t c m E) as [e He]. rewrite He in H. inversion H; subst. reflexivity.
Qed.
(** a session whose state can be read accepts every message *)
Lemma store_item_succeeds d k s c m t : get_state d k = Ok s ->
  exists d', store_item (IMsg c m) t k d = (Ok tt, d').
Proof.
  intros H. eexists. apply store_item_spec with (s := s). unfold old_state. now rewrite H.
Qed.
Lemma get_iss_state d k i : get_iss d k = Ok i -> exists s, get_state d k = Ok s.
Proof. unfold get_iss. destruct (get_state d k); [eauto|discriminate]. Qed.
Lemma get_item_state d c t k i : get_item d c t k = Ok i -> exists s, get_state d k = Ok s.
Proof. unfold get_item. destruct (get_state d k); [eauto|discriminate]. Qed.

(** ** index *)
Lemma store_x_effect x v k d r d' : In x kinds -> store_x2state v k x d = (r, d') ->
  dget (idx x v) d' = Some k /\
  (forall q, q <> idx x v -> q <> ref_key k -> dget q d' = dget q d).
Proof.
  intros Hx. unfold store_x2state. rewrite index_key_ok by assumption. intros H.
  assert (A : dget (idx x v) (dset (idx x v) k d) = Some k) by apply dget_dset_eq.
  assert (B : forall t, dget (idx x v) (dset (ref_key k) t (dset (idx x v) k d)) = Some k).
  { intros t. rewrite dget_dset_neq; [exact A|]. intros C. symmetry in C. now apply idx_ref in C. }
  assert (C : forall q, q <> idx x v -> dget q (dset (idx x v) k d) = dget q d).
  { intros q Hq. apply dget_dset_neq. congruence. }
  assert (D : forall q t, q <> idx x v -> q <> ref_key k ->
     dget q (dset (ref_key k) t (dset (idx x v) k d)) = dget q d).
  { intros q t H1 H2. rewrite dget_dset_neq by congruence. auto. }
  repeat dmH H; inversion H; subst; split; auto.
Qed.
Lemma by_x_bound x v k d : In x kinds -> k <> "" -> dget (idx x v) d = Some k -> get_state_by_x d v x = Ok k.
Proof.
  intros Hx Hk H. unfold get_state_by_x. rewrite index_key_ok by assumption. rewrite H. now rewrite eqb_neq.
Qed.

(** ** creating a session *)
Lemma create_state_effect rnd iss key d k d' : create_state rnd iss key d = (Ok k, d') ->
  k = created_key rnd key /\ (forall q, q <> k -> dget q d' = dget q d) /\
  get_state d' k = Ok (if iss =?s "" then [] else [("iss", VStr iss)]).
Proof.
  unfold create_state, created_key. intros H.
  assert (E : msg_new cState [("iss", VStr iss)] = Ok (if iss =?s "" then [] else [("iss", VStr iss)])).
  { unfold msg_new. simpl. destruct iss; reflexivity. }
  rewrite E in H.
  assert (W : wf_state (if iss =?s "" then [] else [("iss", VStr iss)])).
  { destruct iss; simpl; [apply wf_empty|]. split; [constructor; [simpl; tauto|constructor]|constructor; [right; reflexivity|constructor]]. }
  destruct (key =?s "").
  - inversion H; subst; clear H. split; [reflexivity|]. split.
    + intros q Hq. apply dget_dset_neq. congruence.
    + apply get_state_text; [assumption|]. apply dget_dset_eq.
  - destruct (starts_with "__" key && ends_with "__" key); [discriminate|].
    inversion H; subst; clear H. split; [reflexivity|]. split.
    + intros q Hq. apply dget_dset_neq. congruence.
    + apply get_state_text; [assumption|]. apply dget_dset_eq.
Qed.
