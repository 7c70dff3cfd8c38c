(** Lemmas about provider information. *)
From Verif Require Import Base BaseP Json JsonP Msg M_State S_State M_Ctx M_Codec M_Authz M_ClientAuth M_Service
  M_Token M_Handler M_Provider S_Service S_Provider P_Ctx P_Service.

Lemma strip_slash_app s : ends_with "/" s = false -> strip_slash (s ++ "/")%string = s.
Proof.
  intros H. unfold strip_slash. assert (E : ends_with "/" (s ++ "/")%string = true) by (apply ends_with_iff; eauto).
  rewrite E, srev_app. simpl. apply srev_inv.
Qed.
Lemma strip_slash_app' s : strip_slash (s ++ "/")%string = s.
Proof.
  unfold strip_slash. assert (E : ends_with "/" (s ++ "/")%string = true) by (apply ends_with_iff; eauto).
  rewrite E, srev_app. simpl. apply srev_inv.
Qed.
Lemma strip_slash_no s : ends_with "/" s = false -> strip_slash s = s.
Proof. unfold strip_slash. now intros ->. Qed.

(** ** the issuer check *)
Lemma verify_issuer_spec i c r : verify_issuer (VStr i) c = r ->
  dhas "issuer_mismatch" (allow c) = false ->
  (same_issuer i (issuer c) -> r = Ok i) /\ (~ same_issuer i (issuer c) -> r = Err OidcServiceError).
Proof.
  intros <- Ha. unfold verify_issuer. rewrite Ha.
  destruct (ends_with "/" i) eqn:E1.
  - pose proof E1 as E1'. apply ends_with_iff in E1'. destruct E1' as [t ->].
    destruct (ends_with "/" (issuer c)) eqn:E2.
    + destruct (String.eqb_spec (issuer c) (t ++ "/")%string) as [E|E].
      * split; [now rewrite E|intros X; exfalso; apply X; rewrite E; constructor].
      * split; [|reflexivity]. intros X. exfalso. inversion X as [s A B|s A B D|s A B D]; subst.
        -- congruence.
        -- congruence.
        -- congruence.
    + destruct (String.eqb_spec (issuer c ++ "/")%string (t ++ "/")%string) as [E|E].
      * apply sapp_inj_r in E. rewrite E in *. split; [reflexivity|]. intros X. exfalso. apply X. now constructor.
      * split; [|reflexivity]. intros X. exfalso. inversion X as [s A B|s A B D|s A B D]; subst.
        -- congruence.
        -- congruence.
        -- congruence.
  - destruct (ends_with "/" (issuer c)) eqn:E2.
    + pose proof E2 as E2'. apply ends_with_iff in E2'. destruct E2' as [t E]. rewrite E. rewrite strip_slash_app'.
      destruct (String.eqb_spec t i) as [F|F].
      * subst. split; [reflexivity|]. intros X. exfalso. apply X. now constructor.
      * split; [|reflexivity]. intros X. exfalso. inversion X as [s A B|s A B D|s A B D]; subst.
        -- congruence.
        -- congruence.
        -- apply sapp_inj_r in D. congruence.
    + rewrite strip_slash_no by exact E2. destruct (String.eqb_spec (issuer c) i) as [F|F].
      * subst. split; [reflexivity|]. intros X. exfalso. apply X. constructor.
      * split; [|reflexivity]. intros X. exfalso. inversion X as [s A B|s A B D|s A B D]; subst.
        -- congruence.
        -- assert (ends_with "/" (issuer c ++ "/") = true) by (apply ends_with_iff; eauto). congruence.
        -- rewrite <- D in E2. assert (ends_with "/" (i ++ "/") = true) by (apply ends_with_iff; eauto). congruence.
Qed.
(** whatever happens the result is the configured issuer up to a slash *)
Lemma verify_issuer_same v c i : verify_issuer v c = Ok i ->
  i = issuer c \/ (i ++ "/")%string = issuer c \/ i = (issuer c ++ "/")%string.
Proof.
  unfold verify_issuer. destruct v; try discriminate. intros H.
  assert (E : i = if ends_with "/" s then if ends_with "/" (issuer c) then issuer c else (issuer c ++ "/")%string
                  else strip_slash (issuer c)).
  { destruct (dhas _ _); [now injection H|]. destruct (_ =?s s); [now injection H|discriminate]. }
  subst i. destruct (ends_with "/" s).
  - destruct (ends_with "/" (issuer c)) eqn:E; auto.
  - unfold strip_slash. destruct (ends_with "/" (issuer c)) eqn:E; [|auto].
    apply ends_with_iff in E. destruct E as [t E]. rewrite E, srev_app. simpl. rewrite srev_inv. auto.
Qed.

(** ** negotiation *)
Lemma single_dec pref : {single_valued pref} + {~ single_valued pref}.
Proof. apply in_dec, string_dec. Qed.
Lemma single_valued_in pref : single_valued pref <-> In (pref, false) registration_params.
Proof.
  assert (E : one_valued = map fst (filter (fun kv => negb (snd kv)) registration_params)) by (vm_compute; reflexivity).
  unfold single_valued. rewrite E, in_map_iff. split.
  - intros ([k b] & <- & H). apply filter_In in H. destruct H as [H1 H2]. simpl in *. now destruct b.
  - intros H. exists (pref, false). split; [reflexivity|]. apply filter_In. auto.
Qed.
Lemma registration_nodup : NoDup (dkeys registration_params).
Proof.
  assert (E : forallb (fun x => Nat.eqb (count_occ string_dec (dkeys registration_params) x) 1) (dkeys registration_params) = true)
    by (vm_compute; reflexivity).
  apply (NoDup_count_occ string_dec). intros x. rewrite forallb_forall in E.
  destruct (in_dec string_dec x (dkeys registration_params)) as [i|n].
  - specialize (E x i). apply Nat.eqb_eq in E. lia.
  - apply (count_occ_not_In string_dec) in n. lia.
Qed.
Lemma dget_of_In {A} k (v : A) d : NoDup (dkeys d) -> In (k, v) d -> dget k d = Some v.
Proof.
  induction d as [|[k' v'] r IH]; simpl; [contradiction|]. intros N. inversion N as [|x l Hn Hr]; subst. intros [E|E].
  - injection E as -> ->. now rewrite eqb_refl.
  - destruct (String.eqb_spec k' k) as [->|]; [|now apply IH].
    exfalso. apply Hn. unfold dkeys. apply in_map_iff. now exists (k, v).
Qed.
Lemma single_get pref : single_valued pref <-> dget pref registration_params = Some false.
Proof. rewrite single_valued_in. split; [apply dget_of_In, registration_nodup|apply dget_In]. Qed.

Lemma in_val_supports pcr pref prov vals x : sensible pcr pref prov vals -> In x (options vals) ->
  exists b, in_val x (provider_values pref prov vals pcr) = Ok b /\ (b = true <-> supports pcr pref prov x).
Proof.
  intros (H1 & H2 & H3) Hx. unfold provider_values, supports.
  assert (D : standard_default = PROVIDER_DEFAULT) by reflexivity. rewrite D in *. clear D.
  assert (Hs : exists s, x = VStr s).
  { destruct H2 as [[s ->]|(l & -> & F)]; simpl in Hx.
    - destruct Hx as [<-|[]]. eauto.
    - rewrite Forall_forall in F. now apply F. }
  destruct Hs as [s ->].
  destruct H1 as [E|[l E]]; rewrite E.
  - destruct (dget pref PROVIDER_DEFAULT) as [d|] eqn:Ed.
    + assert (exists t, d = VStr t) as [t ->].
      { unfold PROVIDER_DEFAULT in Ed. simpl in Ed. repeat (eqs_cases; [injection Ed as <-; eauto|]). discriminate. }
      simpl. eexists. split; [reflexivity|]. split; intros X.
      * f_equal. now apply (H3 E t s).
      * injection X as ->. apply contains_iff. exists "", "". simpl. now rewrite sapp_nil.
    + destruct H2 as [[t ->]|(l & -> & F)]; simpl in *.
      * destruct Hx as [X|[]]. injection X as ->. eexists. split; [reflexivity|]. split; [auto|]. intros _.
        apply contains_iff. exists "", "". simpl. now rewrite sapp_nil.
      * eexists. split; [reflexivity|]. split; [auto|]. intros _. apply existsb_exists. exists (VStr s).
        split; [exact Hx|]. apply eqb_refl.
  - simpl. eexists. split; [reflexivity|]. rewrite existsb_exists. split.
    + intros (y & Hy & Ey). change (val_eqb (VStr s) y = true) in Ey. apply val_eqb_eq in Ey. now subst.
    + intros Hy. exists (VStr s). split; [exact Hy|]. apply eqb_refl.
Qed.

Lemma filter_in_spec P pv : forall l,
  (forall x, In x l -> exists b, in_val x pv = Ok b /\ (b = true <-> P x)) ->
  exists f, filter_in l pv = Ok (filter f l) /\ forall x, In x l -> f x = true <-> P x.
Proof.
  intros l Hl. exists (fun x => match in_val x pv with Ok b => b | Err _ => false end). split.
  - induction l as [|x r IH]; [reflexivity|]. simpl.
    destruct (Hl x (or_introl eq_refl)) as (b & E & _). rewrite E. simpl.
    rewrite IH by (intros y Hy; apply Hl; now right). simpl. now destruct b.
  - intros x Hx. destruct (Hl x Hx) as (b & E & Hb). now rewrite E.
Qed.
Lemma first_in_spec (P : val -> Prop) pv : forall l,
  (forall x, In x l -> exists b, in_val x pv = Ok b /\ (b = true <-> P x)) ->
  (first_in l pv = Ok None /\ Forall (fun y => ~ P y) l) \/
  (exists l1 x l2, first_in l pv = Ok (Some x) /\ l = l1 ++ x :: l2 /\ Forall (fun y => ~ P y) l1 /\ P x).
Proof.
  induction l as [|x r IH]; intros Hl; [left; auto|].
  simpl. destruct (Hl x (or_introl eq_refl)) as (b & E & Hb). rewrite E. simpl. destruct b.
  - right. exists [], x, r. repeat split; auto. now apply Hb.
  - assert (N : ~ P x) by (intros X; apply Hb in X; discriminate).
    destruct IH as [[E1 F]|(l1 & y & l2 & E1 & -> & F & Py)]; [intros y Hy; apply Hl; now right| |].
    + left. auto.
    + right. exists (x :: l1), y, l2. repeat split; auto.
Qed.
Lemma choose_spec pcr pref prov vals : sensible pcr pref prov vals ->
  exists o, choose pref vals (provider_values pref prov vals pcr) = Ok o /\ negotiated pcr pref prov vals o.
Proof.
  intros S. pose proof (in_val_supports pcr pref prov vals) as I. pose proof S as (_ & H2 & _).
  destruct H2 as [[s ->]|(l & -> & F)].
  - destruct (I (VStr s) S (or_introl eq_refl)) as (b & E & Hb). unfold choose. rewrite E. simpl.
    exists (if b then Some (VStr s) else None). split; [reflexivity|]. destruct b.
    + apply neg_one with (l1 := []) (l2 := []); [discriminate|reflexivity|constructor|now apply Hb].
    + apply neg_none; [discriminate|]. constructor; [|constructor]. intros X. apply Hb in X. discriminate.
  - destruct (single_dec pref) as [Hs|Hs].
    + pose proof Hs as Hs'. apply single_get in Hs'. unfold choose. rewrite Hs'. simpl.
      destruct (first_in_spec (supports pcr pref prov) (provider_values pref prov (VList l) pcr) l) as
        [[E F1]|(l1 & x & l2 & E & E2 & F1 & Px)]; [intros x Hx; now apply I| |]; rewrite E.
      * exists None. split; [reflexivity|]. now apply neg_none.
      * exists (Some x). split; [reflexivity|]. now apply neg_one with (l1 := l1) (l2 := l2).
    + destruct (filter_in_spec (supports pcr pref prov) (provider_values pref prov (VList l) pcr) l) as (f & E & Hf);
        [intros x Hx; now apply I|].
      exists (Some (VList (filter f l))). split.
      * unfold choose. destruct (dget pref registration_params) as [[|]|] eqn:D.
        -- simpl. now rewrite E.
        -- exfalso. apply Hs. now apply single_get.
        -- now rewrite E.
      * now apply neg_list.
Qed.

(** one round *)
Lemma match_one_spec pcr pref prov c r c' : match_one pcr (pref, prov) c = (r, c') ->
  (forall vals, dget pref (client_preferences c) = Some vals -> sensible pcr pref prov vals) ->
  client_preferences c' = client_preferences c /\
  (forall k, k <> pref -> dget k (behaviour c') = dget k (behaviour c)) /\
  (dget pref (client_preferences c) = None -> r = Ok tt /\ c' = c) /\
  (forall vals, dget pref (client_preferences c) = Some vals -> exists o, negotiated pcr pref prov vals o /\
     dget pref (behaviour c') = match o with Some v => Some v | None => dget pref (behaviour c) end /\
     r = if dhas pref (behaviour c') then Ok tt else Err ConfigurationError).
Proof.
  unfold match_one. cbn [fst snd]. intros H Hs. destruct (dget pref (client_preferences c)) as [vals|] eqn:E.
  - destruct (choose_spec pcr pref prov vals (Hs _ eq_refl)) as (o & Ho & N). rewrite Ho in H. injection H as <- <-.
    cbn [client_preferences behaviour set_behaviour]. split; [reflexivity|]. split.
    { intros k Hk. destruct o; [|reflexivity]. apply dget_dset_neq. congruence. }
    split; [discriminate|]. intros vals' X. injection X as <-. exists o. split; [exact N|]. split; [|reflexivity].
    destruct o; [apply dget_dset_eq|reflexivity].
  - injection H as <- <-. repeat split; auto. discriminate.
Qed.
Lemma adopt_keeps l : forall c r c', adopt_all l c = (r, c') ->
  client_preferences c' = client_preferences c /\
  (forall k v, dget k (behaviour c) = Some v -> dget k (behaviour c') = Some v) /\
  r <> Err ConfigurationError /\
  (forall k, dhas k PREFERENCE2PROVIDER = true -> dget k (behaviour c') = dget k (behaviour c)).
Proof.
  induction l as [|[k v] r IH]; intros c r0 c' H.
  - injection H as <- <-. repeat split; auto. discriminate.
  - cbn [adopt_all] in H. unfold bind in H.
    destruct (adopt_one (k, v) c) as [[u|e] c1] eqn:E.
    + destruct (IH _ _ _ H) as (P1 & P2 & P3 & P4). unfold adopt_one in E. cbn [fst snd] in E.
      destruct (dhas k (behaviour c)) eqn:Ek; [injection E as _ <-; auto|].
      match type of E with context [match ?x with Ok _ => _ | Err _ => _ end] => destruct x as [w|e] end; [|discriminate].
      injection E as _ <-. destruct (dhas k PREFERENCE2PROVIDER) eqn:Ep; [auto|].
      cbn [client_preferences behaviour set_behaviour] in *. split; [exact P1|]. split; [|split; [exact P3|]].
      * intros k' v' Hk. apply P2. rewrite dget_dset. destruct (String.eqb_spec k k') as [->|]; [|exact Hk].
        unfold dhas in Ek. rewrite Hk in Ek. discriminate.
      * intros k' Hk. rewrite (P4 _ Hk). apply dget_dset_neq. intros <-. congruence.
    + injection H as <- <-. unfold adopt_one in E. cbn [fst snd] in E.
      destruct (dhas k (behaviour c)); [discriminate|].
      destruct (dget k registration_params) as [[|]|]; try discriminate; destruct v as [| | | |[|]|];
        try discriminate; injection E as <- <-; repeat split; auto; discriminate.
Qed.

(** the loop over the table *)
Lemma match_all_spec pcr : forall l c r c', NoDup (dkeys l) -> match_all pcr l c = (r, c') ->
  (forall pref prov vals, In (pref, prov) l -> dget pref (client_preferences c) = Some vals -> sensible pcr pref prov vals) ->
  client_preferences c' = client_preferences c /\
  (forall k, ~ In k (dkeys l) -> dget k (behaviour c') = dget k (behaviour c)) /\
  (r = Ok tt \/ r = Err ConfigurationError) /\
  (r = Ok tt -> forall pref prov vals, In (pref, prov) l -> dget pref (client_preferences c) = Some vals ->
     exists o, negotiated pcr pref prov vals o /\ dget pref (behaviour c') <> None /\
       dget pref (behaviour c') = match o with Some v => Some v | None => dget pref (behaviour c) end) /\
  (r = Err ConfigurationError -> exists pref prov vals, In (pref, prov) l /\ dget pref (client_preferences c) = Some vals /\
     negotiated pcr pref prov vals None /\ dget pref (behaviour c) = None).
Proof.
  induction l as [|[p q] l IH]; intros c r c' N H Hs.
  - injection H as <- <-. repeat split; auto; try contradiction. discriminate.
  - cbn [match_all] in H. unfold bind in H. inversion N as [|x y Hn N']; subst.
    destruct (match_one pcr (p, q) c) as [r1 c1] eqn:E.
    assert (Hs1 : forall vals, dget p (client_preferences c) = Some vals -> sensible pcr p q vals)
      by (intros vals Hv; apply (Hs p q vals (or_introl eq_refl) Hv)).
    destruct (match_one_spec _ _ _ _ _ _ E Hs1) as (A1 & A2 & A3 & A4).
    destruct r1 as [u|e].
    + destruct u.
      assert (Hs2 : forall pref prov vals, In (pref, prov) l -> dget pref (client_preferences c1) = Some vals ->
                sensible pcr pref prov vals) by (intros; rewrite A1 in *; eapply Hs; eauto; now right).
      destruct (IH _ _ _ N' H Hs2) as (B1 & B2 & B3 & B4 & B5).
      split; [congruence|]. split.
      { intros k Hk. rewrite B2 by (intros X; apply Hk; now right). apply A2. intros ->. apply Hk. now left. }
      split; [exact B3|]. split.
      * intros Hr pref prov vals [X|X] Hv.
        -- injection X as <- <-. destruct (A4 _ Hv) as (o & O1 & O2 & O3). exists o. split; [exact O1|].
           rewrite B2 by exact Hn. rewrite O2. split; [|reflexivity]. unfold dhas in O3. rewrite O2 in O3.
           destruct o; [discriminate|]. now destruct (dget p (behaviour c)).
        -- rewrite A1 in B4. destruct (B4 Hr _ _ _ X Hv) as (o & O1 & O2 & O3). exists o. split; [exact O1|].
           split; [exact O2|]. rewrite O3. destruct o; [reflexivity|]. apply A2. intros ->. apply Hn.
           unfold dkeys. apply in_map_iff. now exists (p, prov).
      * intros Hr. destruct (B5 Hr) as (pref & prov & vals & X & Y & Z & T). exists pref, prov, vals.
        split; [now right|]. split; [congruence|]. split; [exact Z|]. rewrite <- A2; [exact T|].
        intros ->. apply Hn. unfold dkeys. apply in_map_iff. now exists (p, prov).
    + injection H as <- <-. destruct (dget p (client_preferences c)) as [vals|] eqn:Ep.
      * destruct (A4 _ eq_refl) as (o & O1 & O2 & O3). unfold dhas in O3.
        destruct (dget p (behaviour c1)) eqn:D; [discriminate|]. injection O3 as ->.
        split; [exact A1|]. split.
        { intros k Hk. apply A2. intros ->. apply Hk. now left. }
        split; [auto|]. split; [discriminate|]. intros _. exists p, q, vals. destruct o; [discriminate|].
        split; [now left|]. split; [exact Ep|]. split; [exact O1|]. now symmetry.
      * destruct (A3 eq_refl). discriminate.
Qed.
Lemma table_nodup : NoDup (dkeys PREFERENCE2PROVIDER).
Proof.
  assert (E : forallb (fun x => Nat.eqb (count_occ string_dec (dkeys PREFERENCE2PROVIDER) x) 1) (dkeys PREFERENCE2PROVIDER) = true)
    by (vm_compute; reflexivity).
  apply (NoDup_count_occ string_dec). intros x. rewrite forallb_forall in E.
  destruct (in_dec string_dec x (dkeys PREFERENCE2PROVIDER)) as [i|n].
  - specialize (E x i). apply Nat.eqb_eq in E. lia.
  - apply (count_occ_not_In string_dec) in n. lia.
Qed.
Lemma In_dhas {A} k (v : A) d : In (k, v) d -> dhas k d = true.
Proof. intros H. apply dhas_In. unfold dkeys. apply in_map_iff. now exists (k, v). Qed.

Lemma match_preferences_spec pcr c r c' : pcr <> [] -> match_preferences pcr c = (r, c') ->
  (forall pref prov vals, In (pref, prov) PREFERENCE2PROVIDER -> dget pref (client_preferences c) = Some vals ->
     sensible pcr pref prov vals) ->
  (r = Ok tt -> forall pref prov vals, In (pref, prov) PREFERENCE2PROVIDER -> dget pref (client_preferences c) = Some vals ->
     exists o, negotiated pcr pref prov vals o /\ dget pref (behaviour c') <> None /\
       dget pref (behaviour c') = match o with Some v => Some v | None => dget pref (behaviour c) end) /\
  (r = Err ConfigurationError <-> exists pref prov vals, In (pref, prov) PREFERENCE2PROVIDER /\
     dget pref (client_preferences c) = Some vals /\ negotiated pcr pref prov vals None /\ dget pref (behaviour c) = None).
Proof.
  intros Hp H Hs. unfold match_preferences in H. unfold bind, asks in H.
  assert (Ep : match pcr with [] => provider_info c | _ => pcr end = pcr) by now destruct pcr. rewrite Ep in H.
  destruct (match_all pcr PREFERENCE2PROVIDER c) as [r1 c1] eqn:E.
  destruct (match_all_spec _ _ _ _ _ table_nodup E Hs) as (A1 & A2 & A3 & A4 & A5).
  assert (U : forall pref prov vals o1 o2, sensible pcr pref prov vals -> negotiated pcr pref prov vals o1 ->
            negotiated pcr pref prov vals o2 -> o1 = None -> o2 = None).
  { intros pref prov vals o1 o2 _ N1 N2 ->. inversion N1 as [| |h1 h2]; subst.
    inversion N2 as [l f V S1 S2|l1 x l2 V V2 F2 Px|]; subst; [|exfalso|reflexivity].
    - exfalso. eauto.
    - rewrite V2 in h2. apply Forall_app in h2. destruct h2 as [_ h2]. inversion h2. auto. }
  destruct r1 as [[]|e].
  - destruct (adopt_keeps _ _ _ _ H) as (B1 & B2 & B3 & B4). split.
    + intros _ pref prov vals Hin Hv. destruct (A4 eq_refl _ _ _ Hin Hv) as (o & O1 & O2 & O3). exists o.
      split; [exact O1|]. rewrite (B4 pref) by (eapply In_dhas; exact Hin). auto.
    + split; [intros X; contradiction|]. intros (pref & prov & vals & X & Y & Z & T). exfalso.
      destruct (A4 eq_refl _ _ _ X Y) as (o & O1 & O2 & O3).
      assert (o = None) by (eapply U; eauto). subst. congruence.
  - injection H as <- <-. split; [discriminate|]. destruct A3 as [|A3]; [discriminate|]. injection A3 as ->.
    split; [auto|]. intros _. reflexivity.
Qed.

(** ** negotiation changes the behaviour only *)
Definition beh_only (c c' : ctx) : Prop := c' = set_behaviour (behaviour c') c.
Lemma beh_only_refl c : beh_only c c. Proof. now destruct c. Qed.
Lemma beh_only_trans a b c : beh_only a b -> beh_only b c -> beh_only a c.
Proof. unfold beh_only. intros -> ->. reflexivity. Qed.
Lemma beh_only_set b c : beh_only c (set_behaviour b c).
Proof. reflexivity. Qed.
Lemma match_one_beh pcr pp c r c' : match_one pcr pp c = (r, c') -> beh_only c c'.
Proof.
  unfold match_one. intros H. destruct (dget _ _); [|injection H as <- <-; apply beh_only_refl].
  destruct (choose _ _ _); injection H as <- <-; [apply beh_only_set|apply beh_only_refl].
Qed.
Lemma match_all_beh pcr l : forall c r c', match_all pcr l c = (r, c') -> beh_only c c'.
Proof.
  induction l as [|pp l IH]; intros c r c' H; [injection H as <- <-; apply beh_only_refl|].
  cbn [match_all] in H. unfold bind in H. destruct (match_one pcr pp c) as [[u|e] c1] eqn:E.
  - eapply beh_only_trans; [eapply match_one_beh; exact E|eapply IH; exact H].
  - injection H as <- <-. eapply match_one_beh; exact E.
Qed.
Lemma adopt_all_beh l : forall c r c', adopt_all l c = (r, c') -> beh_only c c'.
Proof.
  induction l as [|kv l IH]; intros c r c' H; [injection H as <- <-; apply beh_only_refl|].
  cbn [adopt_all] in H. unfold bind in H. destruct (adopt_one kv c) as [r1 c1] eqn:E.
  assert (B : beh_only c c1).
  { unfold adopt_one in E. destruct (dhas _ (behaviour c)); [injection E as <- <-; apply beh_only_refl|].
    match type of E with context [match ?x with Ok _ => _ | Err _ => _ end] => destruct x end;
      injection E as <- <-; [|apply beh_only_refl].
    destruct (dhas _ _); [apply beh_only_refl|apply beh_only_set]. }
  destruct r1.
  - eapply beh_only_trans; [exact B|eapply IH; exact H].
  - now injection H as <- <-.
Qed.
Lemma match_preferences_beh pcr c r c' : match_preferences pcr c = (r, c') -> beh_only c c'.
Proof.
  unfold match_preferences, bind, asks. intros H. destruct (match_all _ _ c) as [[u|e] c1] eqn:E.
  - eapply beh_only_trans; [eapply match_all_beh; exact E|eapply adopt_all_beh; exact H].
  - injection H as <- <-. eapply match_all_beh; exact E.
Qed.

(** ** endpoints *)
Lemma set_first_names e v l : map sep_ename (set_first e v l) = map sep_ename l /\ map sep_name (set_first e v l) = map sep_name l.
Proof.
  induction l as [|s r [IH1 IH2]]; [auto|]. simpl. destruct (sep_ename s =?s e); simpl; [auto|]. now rewrite IH1, IH2.
Qed.
(** every service's endpoint is what it was or a published value of its name *)
Definition from_resp (resp : dict val) (s0 s : sep) : Prop :=
  sep_name s = sep_name s0 /\ sep_ename s = sep_ename s0 /\
  (sep_url s = sep_url s0 \/ In (sep_ename s, sep_url s) resp).
Lemma from_resp_trans r a b c : from_resp r a b -> from_resp r b c -> from_resp r a c.
Proof.
  intros (A1 & A2 & A3) (B1 & B2 & B3). repeat split; try congruence. destruct B3 as [B3|B3]; [|auto].
  rewrite B3. destruct A3 as [A3|A3]; [auto|]. right. now rewrite B2.
Qed.
Lemma set_first_from resp e v : In (e, v) resp -> forall l, Forall2 (from_resp resp) l (set_first e v l).
Proof.
  intros H. assert (R : forall l, Forall2 (from_resp resp) l l)
    by (induction l; constructor; auto; repeat split; auto).
  induction l as [|s r IH]; simpl; [constructor|]. destruct (String.eqb_spec (sep_ename s) e) as [<-|].
  - constructor; [|apply R]. repeat split. simpl. auto.
  - constructor; [|exact IH]. repeat split; auto.
Qed.
Lemma Forall2_comp {A} (P : A -> A -> Prop) : (forall a b c, P a b -> P b c -> P a c) ->
  forall l m n, Forall2 P l m -> Forall2 P m n -> Forall2 P l n.
Proof.
  intros T l m n H. revert n. induction H; intros n H2; inversion H2; subst; constructor; eauto.
Qed.
Lemma set_endpoints_from resp : forall l0 l, (forall kv, In kv l0 -> In kv resp) ->
  Forall2 (from_resp resp) l
    (fold_left (fun acc kv => if ends_with "_endpoint" (fst kv) then set_first (fst kv) (snd kv) acc else acc) l0 l).
Proof.
  assert (R : forall l, Forall2 (from_resp resp) l l)
    by (induction l; constructor; auto; repeat split; auto).
  induction l0 as [|[k v] r IH]; intros l H; simpl; [apply R|].
  apply Forall2_comp with (m := if ends_with "_endpoint" k then set_first k v l else l).
  - apply from_resp_trans.
  - destruct (ends_with "_endpoint" k); [|apply R]. apply set_first_from. apply H. now left.
  - apply IH. intros kv X. apply H. now right.
Qed.
Lemma set_all_from resp : forall l0 l, (forall kv, In kv l0 -> In kv resp) ->
  Forall2 (from_resp resp) l
    (fold_left (fun acc kv => if ends_with "_endpoint" (fst kv)
                           then map (fun s => if sep_ename s =?s fst kv then mksep (sep_name s) (sep_ename s) (snd kv) else s) acc
                           else acc) l0 l).
Proof.
  assert (R : forall l, Forall2 (from_resp resp) l l)
    by (induction l; constructor; auto; repeat split; auto).
  induction l0 as [|[k v] r IH]; intros l H; simpl; [apply R|].
  eapply Forall2_comp; [apply from_resp_trans| |apply IH; intros kv X; apply H; now right].
  destruct (ends_with "_endpoint" k); [|apply R].
  assert (Hk : In (k, v) resp) by (apply H; now left). clear - Hk.
  induction l as [|s l IH]; simpl; constructor; [|exact IH].
  destruct (String.eqb_spec (sep_ename s) k) as [<-|]; repeat split; simpl; auto.
Qed.
(** with configured provider information every service gets its published endpoint *)
Lemma set_all_sets resp : forall l e v s, NoDup (dkeys resp) -> ends_with "_endpoint" e = true -> dget e resp = Some v ->
  In s (set_all resp l) -> sep_ename s = e -> sep_url s = v.
Proof.
  unfold set_all. intros l e v s.
  assert (K : forall (l0 : dict val) l, ~ In e (dkeys l0) ->
     (forall s, In s l -> sep_ename s = e -> sep_url s = v) ->
     forall s, In s (fold_left (fun acc kv => if ends_with "_endpoint" (fst kv)
        then map (fun s => if sep_ename s =?s fst kv then mksep (sep_name s) (sep_ename s) (snd kv) else s) acc
        else acc) l0 l) -> sep_ename s = e -> sep_url s = v).
  { induction l0 as [|[k w] l0 IH]; intros m Hn Hm; [exact Hm|]. cbn [fold_left fst snd]. apply IH; [intros X; apply Hn; now right|].
    destruct (ends_with "_endpoint" k); [|exact Hm]. intros t Ht Et. apply in_map_iff in Ht. destruct Ht as (u & <- & Hu).
    destruct (String.eqb_spec (sep_ename u) k) as [E|].
    - simpl in Et. exfalso. apply Hn. left. simpl. congruence.
    - now apply Hm. }
  revert l. induction resp as [|[k w] resp IH]; intros l N He Hg; [discriminate|]. cbn [fold_left fst snd].
  inversion N as [|x y Hn N']; subst. simpl in Hg. destruct (String.eqb_spec k e) as [->|].
  - injection Hg as ->. rewrite He. apply K; [exact Hn|]. intros t Ht Et. apply in_map_iff in Ht.
    destruct Ht as (u & <- & Hu). destruct (String.eqb_spec (sep_ename u) e) as [E|E]; [reflexivity|congruence].
  - now apply IH.
Qed.

(** negotiation raises only these *)
Definition neg_exn (e : exn) : Prop := e = ConfigurationError \/ e = TypeError \/ e = IndexError.
Lemma choose_exn pref v w e : choose pref v w = Err e -> e = TypeError.
Proof.
  assert (Fi : forall x w e, in_val x w = Err e -> e = TypeError).
  { intros x w0 e0. destruct w0; simpl; try congruence; destruct x; congruence. }
  assert (Ff : forall l w e, filter_in l w = Err e -> e = TypeError).
  { induction l as [|x l IHl]; intros w0 e0; [discriminate|]. simpl. destruct (in_val x w0) eqn:E; simpl.
    - destruct (filter_in l w0) eqn:E1; simpl; [discriminate|]. intros X. injection X as <-. eapply IHl; exact E1.
    - intros X. injection X as <-. eapply Fi; exact E. }
  assert (F1 : forall l w e, first_in l w = Err e -> e = TypeError).
  { induction l as [|x l IHl]; intros w0 e0; [discriminate|]. simpl. destruct (in_val x w0) as [[|]|] eqn:E; simpl.
    - discriminate.
    - apply IHl.
    - intros X. injection X as <-. eapply Fi; exact E. }
  assert (Ft : forall v e, iter_val v = Err e -> e = TypeError) by (destruct v0; simpl; congruence).
  unfold choose.
  destruct v; destruct (dget pref registration_params) as [[|]|]; cbn [rbind iter_val];
    repeat match goal with
    | |- context [in_val ?a ?b] => let E := fresh in destruct (in_val a b) eqn:E; cbn [rbind]
    | |- context [filter_in ?a ?b] => let E := fresh in destruct (filter_in a b) eqn:E; cbn [rbind]
    end; intros X; try discriminate X; try (injection X as <-); eauto.
Qed.
Lemma match_preferences_exn pcr c e c' : match_preferences pcr c = (Err e, c') -> neg_exn e.
Proof.
  unfold match_preferences, bind, asks, neg_exn. generalize (match pcr with [] => provider_info c | _ => pcr end). intros pc.
  assert (A : forall l c e c', match_all pc l c = (Err e, c') -> e = ConfigurationError \/ e = TypeError).
  { induction l as [|kv l IH]; intros c0 e0 c1 H; [discriminate|]. cbn [match_all] in H. unfold bind in H.
    destruct (match_one pc kv c0) as [[u|e1] c2] eqn:E; [eapply IH; exact H|]. injection H as -> ->.
    unfold match_one in E. destruct (dget (fst kv) (client_preferences c0)) as [vals|]; [|discriminate].
    destruct (choose _ _ _) eqn:E1; [|injection E as -> _; right; eapply choose_exn; exact E1].
    left. match type of E with context [if ?b then Ok tt else _] => destruct b end; [discriminate|]. now injection E as <-. }
  assert (B : forall l c e c', adopt_all l c = (Err e, c') -> e = IndexError).
  { induction l as [|kv l IH]; intros c0 e0 c1 H; [discriminate|]. cbn [adopt_all] in H. unfold bind in H.
    destruct (adopt_one kv c0) as [[u|e1] c2] eqn:E; [eapply IH; exact H|]. injection H as -> ->.
    unfold adopt_one in E. destruct (dhas (fst kv) (behaviour c0)); [discriminate|].
    destruct (dget (fst kv) registration_params) as [[|]|]; try discriminate;
      destruct (snd kv) as [| | | |[|]|]; try discriminate; now injection E as <- <-. }
  destruct (match_all _ _ c) as [[u|e0] c1] eqn:E; intros H.
  - right. right. eapply B; exact H.
  - injection H as -> ->. destruct (A _ _ _ _ E); auto.
Qed.

(** ** preferences that are not negotiated *)
Lemma adopt_all_get l : forall c c', NoDup (dkeys l) -> adopt_all l c = (Ok tt, c') -> forall k, dhas k PREFERENCE2PROVIDER = false ->
  dget k (behaviour c') =
    match dget k (behaviour c) with
    | Some w => Some w
    | None => match dget k l with
              | Some v => Some (match dget k registration_params, v with Some false, VList (x :: _) => x | _, _ => v end)
              | None => None
              end
    end.
Proof.
  induction l as [|[k0 v0] r IH]; intros c c' N H k Hk.
  - injection H as <-. simpl. now destruct (dget k (behaviour c)).
  - inversion N as [|x y N1 N2]; subst. cbn [adopt_all] in H. unfold bind in H.
    destruct (adopt_one (k0, v0) c) as [[u|e] c1] eqn:E; [|discriminate].
    rewrite (IH _ _ N2 H k Hk). unfold adopt_one in E. cbn [fst snd] in E.
    assert (Q : forall A (d : dict A), k0 = k -> ~ In k0 (dkeys d) -> dget k d = None).
    { intros A d -> Hn. destruct (dget k d) eqn:X; [|reflexivity]. exfalso. apply Hn. apply dhas_In. unfold dhas. now rewrite X. }
    destruct (dhas k0 (behaviour c)) eqn:Ek.
    { injection E as _ <-. cbn [dget]. destruct (String.eqb_spec k0 k) as [->|]; [|reflexivity].
      unfold dhas in Ek. destruct (dget k (behaviour c)); [reflexivity|discriminate]. }
    match type of E with context [match ?x with Ok _ => _ | Err _ => _ end] => destruct x as [w|e] eqn:Ew end; [|discriminate].
    injection E as _ <-. cbn [dget]. destruct (String.eqb_spec k0 k) as [->|Nk].
    + rewrite Hk. cbn [behaviour set_behaviour]. rewrite dget_dset_eq.
      unfold dhas in Ek. destruct (dget k (behaviour c)); [discriminate|]. f_equal.
      destruct (dget k registration_params) as [[|]|]; destruct v0 as [| | | |[|]|]; congruence.
    + destruct (dhas k0 PREFERENCE2PROVIDER); [reflexivity|]. cbn [behaviour set_behaviour]. now rewrite dget_dset_neq.
Qed.
Lemma match_preferences_other pcr c c' k : pcr <> [] -> match_preferences pcr c = (Ok tt, c') ->
  (forall pref prov vals, In (pref, prov) PREFERENCE2PROVIDER -> dget pref (client_preferences c) = Some vals ->
     sensible pcr pref prov vals) -> NoDup (dkeys (client_preferences c)) -> dhas k PREFERENCE2PROVIDER = false ->
  dget k (behaviour c') =
    match dget k (behaviour c) with
    | Some w => Some w
    | None => match dget k (client_preferences c) with
              | Some v => Some (match dget k registration_params, v with Some false, VList (x :: _) => x | _, _ => v end)
              | None => None
              end
    end.
Proof.
  intros Hp H Hs N Hk. unfold match_preferences in H. unfold bind, asks in H.
  assert (Ep : match pcr with [] => provider_info c | _ => pcr end = pcr) by now destruct pcr. rewrite Ep in H.
  destruct (match_all pcr PREFERENCE2PROVIDER c) as [r1 c1] eqn:E. destruct r1 as [u|]; [|discriminate].
  destruct (match_all_spec _ _ _ _ _ table_nodup E Hs) as (A1 & A2 & _).
  rewrite A1 in *. rewrite (adopt_all_get _ _ _ N H k Hk). rewrite A2; [reflexivity|].
  intros X. apply dhas_In in X. congruence.
Qed.

Lemma load_specs_ok iss specs : forall j,
  (forall typ spec, In (typ, spec) specs -> (typ = "url" \/ typ = "file") /\ exists d, spec = VDict d) <->
  fst (load_key_specs iss specs j) = Ok tt.
Proof.
  induction specs as [|[typ spec] r IH]; intros j.
  - split; [reflexivity|]. intros _ ? ? [].
  - cbn [load_key_specs]. split.
    + intros H. destruct (H typ spec (or_introl eq_refl)) as [T (d & ->)].
      assert (H' : forall typ spec, In (typ, spec) r -> (typ = "url" \/ typ = "file") /\ exists d, spec = VDict d)
        by (intros a b I; apply H; now right).
      destruct T as [-> | ->]; cbn [String.eqb Ascii.eqb Bool.eqb andb]; now apply IH.
    + intros H. destruct (typ =?s "url") eqn:E1.
      * apply eqb_true_iff in E1. subst typ. destruct spec as [| | | | |d]; try discriminate.
        intros a b [I|I]; [injection I as <- <-; split; [auto|now exists d]|]. exact (proj2 (IH _) H a b I).
      * destruct (typ =?s "file") eqn:E2; [|discriminate].
        apply eqb_true_iff in E2. subst typ. destruct spec as [| | | | |d]; try discriminate.
        intros a b [I|I]; [injection I as <- <-; split; [auto|now exists d]|]. exact (proj2 (IH _) H a b I).
Qed.
Lemma load_configured_ok iss pi j : usable_keys pi <-> fst (load_configured_keys iss pi j) = Ok tt.
Proof.
  unfold usable_keys, load_configured_keys. destruct (dget "keys" pi) as [v|]; [|split; [reflexivity|discriminate]].
  split.
  - intros H. destruct (H v eq_refl) as (specs & -> & K). now apply load_specs_ok.
  - intros H w [= <-]. destruct v; try discriminate. eexists. split; [reflexivity|]. exact (proj2 (load_specs_ok _ _ _) H).
Qed.
