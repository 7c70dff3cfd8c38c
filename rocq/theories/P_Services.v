(** Proofs for C64. *)
From Verif Require Import Base BaseP Json M_ReqObj M_Services S_Services.

Lemma gather_ok I ms : forall acc l, gather_constructors I ms acc = Ok l -> exists m, names_functions I ms m /\ l = acc ++ m.
Proof.
  induction ms as [|[q|] r IH]; cbn; intros acc l H.
  - injection H as <-. exists []. split; [constructor|now rewrite app_nil_r].
  - destruct (importer I q) eqn:E; cbn in H; [|discriminate]. destruct (IH _ _ H) as (m & N & ->). exists (a :: m). split; [now constructor|now rewrite <- app_assoc].
  - destruct (IH _ _ H) as (m & N & ->). exists m. split; [now constructor|reflexivity].
Qed.
Lemma class_of_names I d k : class_of I d = Ok k <-> names_class I d k.
Proof.
  unfold class_of, names_class. destruct (d_class d) as [[q|k0]|].
  - destruct (importer I q) as [[k1|f]|e] eqn:E; cbn; split; intros H.
    + injection H as ->. right. eauto.
    + destruct H as [H|(q' & H & H')]; [discriminate|]. injection H as <-. congruence.
    + discriminate.
    + destruct H as [H|(q' & H & H')]; [discriminate|]. injection H as <-. congruence.
    + discriminate.
    + destruct H as [H|(q' & H & H')]; [discriminate|]. injection H as <-. congruence.
  - split; intros H; [injection H as ->; now left|]. destruct H as [H|(q' & H & H')]; congruence.
  - split; intros H; [discriminate|]. destruct H as [H|(q' & H & H')]; discriminate.
Qed.

Definition same_kw (a b : dict kwval) : Prop :=
  (forall k, k <> "client_get" -> k <> "client_authn_factory" -> dget k a = dget k b).
(** two configurations that differ at most in what clients have left there *)
Definition same_conf (h h' : kheap) : Prop := forall l, same_kw (h l) (h' l).
Lemma same_refl h : same_conf h h. Proof. intros l k _ _. reflexivity. Qed.
Lemma same_trans h1 h2 h3 : same_conf h1 h2 -> same_conf h2 h3 -> same_conf h1 h3.
Proof. intros A B l k K1 K2. now rewrite (A l k K1 K2), (B l k K1 K2). Qed.
Lemma same_sym h1 h2 : same_conf h1 h2 -> same_conf h2 h1.
Proof. intros A l k K1 K2. symmetry. now apply A. Qed.

Lemma both_same c f kw : same_kw (both c f kw) kw.
Proof. intros k K1 K2. unfold both. rewrite !dget_dset_neq; auto. Qed.
Lemma both_client c f kw : dget "client_get" (both c f kw) = Some (KClient c).
Proof. unfold both. rewrite dget_dset_neq by discriminate. now rewrite dget_dset_eq. Qed.
Lemma both_factory c f kw : dget "client_authn_factory" (both c f kw) = Some (KFactory f).
Proof. unfold both. now rewrite dget_dset_eq. Qed.
Lemma arguments_same c f d h : same_conf h (snd (arguments c f d h)).
Proof.
  unfold arguments. destruct (d_kwargs d) as [l|]; [|apply same_refl]. intros l' k K1 K2. cbn. unfold hput.
  destruct (Nat.eqb_spec l' l) as [->|]; [|reflexivity]. symmetry. now apply both_same.
Qed.
Lemma init_from_same I c f defs : forall srv h, same_conf h (snd (init_from I c f defs srv h)).
Proof.
  induction defs as [|[n d] r IH]; cbn; intros srv h; [apply same_refl|].
  pose proof (arguments_same c f d h) as A. destruct (arguments c f d h) as [kw h']. cbn in A.
  destruct (init_service I c f d kw); [|exact A]. eapply same_trans; [exact A|apply IH].
Qed.

(** the result of one service depends on the configuration up to [same_conf] *)
Lemma dhas_dget_None {A} k (d : dict A) : dhas k d = match dget k d with Some _ => true | None => false end.
Proof. unfold dhas. reflexivity. Qed.
Lemma In_keys_dget {A} (k : string) (d : dict A) : In k (dkeys d) <-> dget k d <> None.
Proof.
  unfold dkeys. induction d as [|[k' v] r IH]; cbn; [split; [easy|congruence]|].
  destruct (k' =?s k) eqn:E.
  - apply eqb_true_iff in E. subst. split; [discriminate|now left].
  - assert (N : k' <> k) by (intros ->; now rewrite eqb_refl in E). rewrite <- IH. split; [intros [H|H]; [contradiction|exact H]|now right].
Qed.
Lemma keys_both c f kw k : In k (dkeys (both c f kw)) <-> k = "client_get" \/ k = "client_authn_factory" \/ In k (dkeys kw).
Proof.
  rewrite !In_keys_dget. destruct (string_dec k "client_get") as [->|N1].
  { rewrite both_client. split; [now left|discriminate]. }
  destruct (string_dec k "client_authn_factory") as [->|N2].
  { rewrite both_factory. split; [now right; left|discriminate]. }
  rewrite (both_same c f kw k N1 N2). split; [now right; right|]. intros [?|[?|H]]; [contradiction..|exact H].
Qed.
Lemma forallb_incl {A} (p : A -> bool) l l' : (forall x, In x l' -> In x l \/ p x = true) -> forallb p l = true -> forallb p l' = true.
Proof.
  intros H F. apply forallb_forall. intros x Hx. destruct (H x Hx) as [Y|Y]; [|exact Y]. rewrite forallb_forall in F. now apply F.
Qed.
Lemma instantiate_same k kw1 kw2 c f : same_kw kw1 kw2 -> instantiate k (both c f kw1) = instantiate k (both c f kw2).
Proof.
  intros S. unfold instantiate. rewrite !both_client, !both_factory.
  assert (E : dget "conf" (both c f kw1) = dget "conf" (both c f kw2)).
  { rewrite !both_same by discriminate. now apply S. }
  rewrite E. destruct (k_accepts k) as [l|]; [|reflexivity].
  assert (G : forall a b, same_kw a b -> forallb (fun x => mem_str x (fixed_args ++ l)) (dkeys (both c f a)) = true ->
     forallb (fun x => mem_str x (fixed_args ++ l)) (dkeys (both c f b)) = true).
  { intros a b T. apply forallb_incl. intros x Hx. apply keys_both in Hx. destruct Hx as [->|[->|Hx]]; [now right|now right|].
    destruct (string_dec x "client_get") as [->|N1]; [now right|]. destruct (string_dec x "client_authn_factory") as [->|N2]; [now right|].
    left. apply keys_both. right. right. apply In_keys_dget. apply In_keys_dget in Hx. now rewrite (T x N1 N2). }
  destruct (forallb _ (dkeys (both c f kw1))) eqn:E1, (forallb _ (dkeys (both c f kw2))) eqn:E2; try reflexivity.
  - rewrite (G kw1 kw2 S E1) in E2. discriminate.
  - rewrite (G kw2 kw1 (fun k a b => eq_sym (S k a b)) E2) in E1. discriminate.
Qed.
Lemma init_service_same I c f d h h' : same_conf h h' ->
  init_service I c f d (fst (arguments c f d h)) = init_service I c f d (fst (arguments c f d h')).
Proof.
  intros S. unfold arguments. destruct (d_kwargs d) as [l|]; [|reflexivity]. cbn. unfold init_service.
  destruct (class_of I d); [|reflexivity]. cbn [rbind]. now rewrite (instantiate_same a (h l) (h' l) c f (S l)).
Qed.
Lemma init_from_stable I c f defs : forall srv h h', same_conf h h' -> fst (init_from I c f defs srv h) = fst (init_from I c f defs srv h').
Proof.
  induction defs as [|[n d] r IH]; cbn; intros srv h h' S; [reflexivity|].
  pose proof (init_service_same I c f d h h' S) as E. pose proof (arguments_same c f d h) as A1. pose proof (arguments_same c f d h') as A2.
  destruct (arguments c f d h) as [kw h1]. destruct (arguments c f d h') as [kw' h1']. cbn in E, A1, A2. rewrite E.
  destruct (init_service I c f d kw'); [|reflexivity]. apply IH. eapply same_trans; [apply same_sym, A1|]. eapply same_trans; [exact S|exact A2].
Qed.
Lemma made_before_same I cs : forall h, same_conf h (made_before I cs h).
Proof.
  unfold made_before. induction cs as [|c r IH]; cbn; intros h; [apply same_refl|].
  eapply same_trans; [apply init_from_same|apply IH].
Qed.

(** one service *)
Lemma conf_same h h' d : same_conf h h' -> conf_of h d = conf_of h' d.
Proof. intros S. unfold conf_of. destruct (d_kwargs d) as [l|]; [|reflexivity]. now rewrite (S l "conf") by discriminate. Qed.
Lemma describes_same I h h' c f d i : same_conf h h' -> describes I h c f d i -> describes I h' c f d i.
Proof. intros S [A B C D E F]. constructor; auto. now rewrite <- (conf_same h h' d S). Qed.
Lemma init_service_describes I c f d h i : init_service I c f d (fst (arguments c f d h)) = Ok i -> describes I h c f d i.
Proof.
  unfold init_service. destruct (class_of I d) as [k|] eqn:K; [|discriminate]. cbn [rbind].
  assert (X : exists kw, fst (arguments c f d h) = both c f kw /\ (match dget "conf" kw with Some (KVal (VDict x)) => x | _ => [] end) = conf_of h d).
  { unfold arguments, conf_of. destruct (d_kwargs d) as [l|]; cbn [fst]; [exists (h l)|exists []]; split; reflexivity. }
  destruct X as (kw & -> & EC). unfold instantiate. rewrite both_client, both_factory, both_same by discriminate.
  destruct (match k_accepts k with None => true | Some l => _ end); [|discriminate]. cbn [rbind i_post i_pre i_class i_client i_factory i_conf i_headers].
  destruct (gather_constructors I (d_post d) _) as [post|] eqn:G1; [|discriminate]. cbn [rbind].
  destruct (gather_constructors I (d_pre d) _) as [pre|] eqn:G2; [|discriminate]. cbn [rbind].
  intros H. injection H as <-. apply gather_ok in G1. apply gather_ok in G2.
  constructor; cbn; auto. now apply class_of_names.
Qed.

Lemma init_from_spec I c f n defs : forall srv h srv' h0, same_conf h0 h -> init_from I c f defs srv h = (Ok srv', snd (init_from I c f defs srv h)) ->
  (exists d i, last_for I n defs d /\ dget n srv' = Some i /\ describes I h0 c f d i) \/
  ((forall key d k, In (key, d) defs -> names_class I d k -> k_service_name k <> n) /\ dget n srv' = dget n srv).
Proof.
  induction defs as [|[key d] r IH]; cbn; intros srv h srv' h0 S H.
  - injection H as <-. right. split; [easy|reflexivity].
  - pose proof (init_service_describes I c f d h) as D. pose proof (arguments_same c f d h) as A. destruct (arguments c f d h) as [kw h']. cbn [fst snd] in *.
    destruct (init_service I c f d kw) as [i|e] eqn:E; [|discriminate]. specialize (D i eq_refl).
    assert (S' : same_conf h0 h') by (eapply same_trans; eauto).
    destruct (IH _ _ _ _ S' H) as [(d' & i' & (b & key' & a & k & -> & L1 & L2 & L3) & G & D')|(N & G)].
    + left. exists d', i'. split; [|auto]. exists ((key, d) :: b), key', a, k. auto.
    + destruct (string_dec (k_service_name (i_class i)) n) as [En|Nn].
      * left. exists d, i. split; [|split; [|exact (describes_same I h h0 c f d i (same_sym _ _ S) D)]].
        -- exists [], key, r, (i_class i). split; [reflexivity|]. split; [apply D|]. split; [exact En|exact N].
        -- rewrite G, En. apply dget_dset_eq.
      * right. split.
        -- intros key' d' k [X|X] K; [|eapply N; eauto]. injection X as <- <-. apply class_of_names in K. destruct D as [DC _ _ _ _ _]. apply class_of_names in DC. congruence.
        -- rewrite G. now apply dget_dset_neq.
Qed.
Lemma gather_total I ms m : names_functions I ms m -> forall acc, gather_constructors I ms acc = Ok (acc ++ m).
Proof.
  induction 1; cbn; intros acc; [now rewrite app_nil_r|apply IHnames_functions|]. rewrite H. cbn. rewrite IHnames_functions. now rewrite <- app_assoc.
Qed.
Lemma mem_str_In a l : In a l -> mem_str a l = true.
Proof. intros H. unfold mem_str. apply existsb_exists. exists a. split; [exact H|apply eqb_refl]. Qed.
Lemma init_service_total I c f d h : usable I h d -> exists i, init_service I c f d (fst (arguments c f d h)) = Ok i.
Proof.
  intros (k & pre & post & K & P & Q & A). unfold init_service. apply class_of_names in K. rewrite K. cbn [rbind].
  assert (X : exists i, instantiate k (fst (arguments c f d h)) = Ok i).
  { unfold instantiate, arguments. destruct (d_kwargs d) as [l|] eqn:EL; cbn [fst]; rewrite both_client, both_factory.
    - destruct (k_accepts k) as [names|] eqn:EA; [|eauto].
      rewrite (proj2 (forallb_forall _ _)); [eauto|]. intros x Hx. apply mem_str_In. apply keys_both in Hx.
      destruct Hx as [->|[->|Hx]]; [now left|now right; left|]. apply In_keys_dget in Hx. eapply A; eauto.
    - destruct (k_accepts k) as [names|] eqn:EA; [|eauto].
      rewrite (proj2 (forallb_forall _ _)); [eauto|]. intros x Hx. apply mem_str_In. apply keys_both in Hx.
      destruct Hx as [->|[->|Hx]]; [now left|now right; left|]. destruct Hx. }
  destruct X as (i & ->). cbn [rbind]. rewrite (gather_total I _ _ Q), (gather_total I _ _ P). cbn. eauto.
Qed.
Lemma usable_same I h h' d : same_conf h h' -> usable I h d -> usable I h' d.
Proof.
  intros S (k & pre & post & K & P & Q & A). exists k, pre, post. repeat split; auto. intros l names a L N G.
  destruct (string_dec a "client_get") as [->|N1]; [now left|]. destruct (string_dec a "client_authn_factory") as [->|N2]; [now right; left|].
  eapply A; eauto. now rewrite (S l a N1 N2).
Qed.
Lemma init_from_total I c f defs : forall srv h, (forall key d, In (key, d) defs -> usable I h d) -> exists srv', fst (init_from I c f defs srv h) = Ok srv'.
Proof.
  induction defs as [|[n d] r IH]; cbn; intros srv h U; [eauto|].
  destruct (init_service_total I c f d h (U n d (or_introl eq_refl))) as (i & E). pose proof (arguments_same c f d h) as A.
  destruct (arguments c f d h) as [kw h']. cbn [fst snd] in *. rewrite E. apply IH. intros key d' Hd. eapply usable_same; [exact A|]. eapply U. right. exact Hd.
Qed.
