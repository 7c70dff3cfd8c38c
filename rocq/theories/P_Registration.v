(** Lemmas about registration. *)
From Verif Require Import Base BaseP Json JsonP Msg M_State S_State M_Ctx M_Codec M_Authz M_ClientAuth M_Service
  M_Token M_Handler M_Provider M_Registration S_Service S_Provider S_Registration P_Ctx P_Authz P_Service P_Wire P_Flow P_Provider.
From Coq Require Import Permutation.

(** ** response types *)
Lemma insert_perm x l : Permutation (insert x l) (x :: l).
Proof.
  induction l as [|y l IH]; cbn [insert]; [reflexivity|].
  destruct (String.leb x y); [reflexivity|]. rewrite IH. apply perm_swap.
Qed.
Lemma sort_perm l : Permutation (sort l) l.
Proof. induction l as [|x l IH]; cbn [sort]; [reflexivity|]. now rewrite insert_perm, IH. Qed.

Lemma standard_cases ws : standard ws ->
  In ws [["code"]; ["id_token"]; ["id_token"; "token"]; ["token"; "id_token"]; ["code"; "id_token"]; ["id_token"; "code"];
         ["code"; "token"]; ["token"; "code"];
         ["code"; "id_token"; "token"]; ["code"; "token"; "id_token"]; ["id_token"; "code"; "token"];
         ["id_token"; "token"; "code"]; ["token"; "code"; "id_token"]; ["token"; "id_token"; "code"]].
Proof.
  intros (H1 & H2 & N & I).
  destruct ws as [|a [|b [|c [|d ws]]]]; [congruence| | | |].
  - pose proof (I a (or_introl eq_refl)) as A. cbn in A. destruct A as [<-|[<-|[<-|[]]]]; cbn; auto; congruence.
  - pose proof (I a (or_introl eq_refl)) as A. pose proof (I b (or_intror (or_introl eq_refl))) as B.
    assert (a <> b) by (inversion N; subst; cbn in *; intuition congruence).
    cbn in A, B. destruct A as [<-|[<-|[<-|[]]]]; destruct B as [<-|[<-|[<-|[]]]]; try congruence; cbn; auto 10.
  - pose proof (I a (or_introl eq_refl)) as A. pose proof (I b (or_intror (or_introl eq_refl))) as B.
    pose proof (I c (or_intror (or_intror (or_introl eq_refl)))) as C.
    assert (a <> b /\ a <> c /\ b <> c) as (X & Y & Z).
    { inversion N as [|? ? P1 P2]; subst. inversion P2 as [|? ? P3 P4]; subst. cbn in *. intuition congruence. }
    cbn in A, B, C. destruct A as [<-|[<-|[<-|[]]]]; destruct B as [<-|[<-|[<-|[]]]]; try congruence;
      destruct C as [<-|[<-|[<-|[]]]]; try congruence; cbn; auto 20.
  - exfalso. assert (L : length (a :: b :: c :: d :: ws) <= length ["code"; "id_token"; "token"]).
    { apply NoDup_incl_length; [exact N|]. intros w. apply I. }
    cbn in L. lia.
Qed.

Definition known_words : list (list string) :=
  [["code"]; ["id_token"]; ["id_token"; "token"]; ["code"; "id_token"]; ["code"; "token"]; ["code"; "id_token"; "token"]].
Lemma standard_perm ws vs : Permutation ws vs -> standard vs -> standard ws.
Proof.
  intros P (A & B & C & D). repeat split.
  - intros ->. apply Permutation_nil in P. congruence.
  - intros ->. apply Permutation_length_1_inv in P. congruence.
  - eapply Permutation_NoDup; [symmetry; exact P|exact C].
  - intros w H. apply D. eapply Permutation_in; eassumption.
Qed.
Lemma known_standard ws : In ws known_words -> standard ws.
Proof.
  cbn [known_words In]. intros H.
  repeat (destruct H as [<-|H]; [repeat split; [discriminate|discriminate|repeat constructor; cbn; intuition discriminate|cbn; intuition]|]).
  destruct H.
Qed.
Lemma join_sp_inj a b : a <> [] -> b <> [] -> forallb (fun w => negb (char_in sp w)) a = true ->
  forallb (fun w => negb (char_in sp w)) b = true -> join " " a = join " " b -> a = b.
Proof.
  intros Ha Hb Fa Fb H. apply (f_equal (split_on sp)) in H.
  change " " with (String sp "") in H. now rewrite !split_join in H.
Qed.
Lemma split_nosep c s w : In w (split_on c s) -> char_in c w = false.
Proof.
  revert w. induction s as [|a s IH]; cbn [split_on]; intros w.
  - intros [<-|[]]. reflexivity.
  - destruct (Ascii.eqb_spec a c) as [->|Hac].
    + intros [<-|H]; [reflexivity|auto].
    + destruct (split_on c s) as [|x r]; [intros [<-|[]]|intros [<-|H]]; cbn [char_in].
      * destruct (Ascii.eqb_spec c a); [congruence|reflexivity].
      * rewrite (IH x) by now left. destruct (Ascii.eqb_spec c a); [congruence|reflexivity].
      * apply IH. now right.
Qed.
Lemma words_nosp rt : forallb (fun w => negb (char_in sp w)) (sort (words rt)) = true.
Proof.
  apply forallb_forall. intros w H. apply (Permutation_in _ (sort_perm _)) in H.
  now rewrite (split_nosep _ _ _ H).
Qed.
Lemma sort_words_nonnil rt : sort (words rt) <> [].
Proof.
  intros H. pose proof (sort_perm (words rt)) as P. rewrite H in P. apply Permutation_nil in P.
  now apply (split_on_nonnil sp rt).
Qed.

Lemma sort_standard ws : standard ws -> In (sort ws) known_words.
Proof.
  intros H. apply standard_cases in H. cbn [In] in H.
  repeat (destruct H as [<-|H]; [vm_compute; tauto|]). destruct H.
Qed.

Lemma grant_types_of_spec rt g : In g (grant_types_of rt) <-> standard (words rt) /\ needs (words rt) g.
Proof.
  unfold grant_types_of. fold (words rt).
  assert (K : forall kw, In kw known_words -> sort (words rt) = kw -> forall x, In x (words rt) <-> In x kw).
  { intros kw _ E x. rewrite <- E. split; apply Permutation_in; [symmetry|]; apply sort_perm. }
  split.
  - intros H. destruct (dget (join " " (sort (words rt))) rt2gt) as [gs|] eqn:E; [|destruct H].
    apply dget_In in E.
    assert (X : exists kw, In kw known_words /\ join " " (sort (words rt)) = join " " kw /\ needs kw g).
    { unfold rt2gt in E. cbn [In] in E.
      repeat (destruct E as [E|E]; [injection E as E1 E2; rewrite <- E1; subst gs;
        match type of E1 with ?k = _ => exists (split_on sp k) end; split; [vm_compute; tauto|]; split; [reflexivity|];
        unfold needs; cbn in H |- *; intuition congruence|]). destruct E. }
    destruct X as (kw & Hk & Hj & Hn).
    assert (Es : sort (words rt) = kw).
    { apply join_sp_inj; [apply sort_words_nonnil| |apply words_nosp| |exact Hj].
      - destruct (known_standard kw Hk) as [? _]. assumption.
      - cbn [known_words In] in Hk. repeat (destruct Hk as [<-|Hk]; [reflexivity|]). destruct Hk. }
    split.
    + eapply standard_perm; [|apply (known_standard kw Hk)]. rewrite <- Es. symmetry. apply sort_perm.
    + unfold needs in *. rewrite !(K kw Hk Es). exact Hn.
  - intros [Hs Hn]. pose proof (sort_standard _ Hs) as Hk.
    unfold needs in Hn. rewrite !(K _ Hk eq_refl) in Hn.
    cbn [known_words In] in Hk.
    clear K Hs. revert Hk Hn. generalize (sort (words rt)) as sw. intros sw Hk Hn.
    repeat (destruct Hk as [Hk|Hk]; [subst sw; cbn [In] in Hn;
      match goal with |- In g ?x => let y := eval vm_compute in x in change (In g y) end; cbn [In]; intuition congruence|]). destruct Hk.
Qed.

Lemma set_add_spec l x y : In y (set_add l x) <-> In y l \/ y = x.
Proof.
  unfold set_add. destruct (mem_str x l) eqn:E.
  - apply mem_str_In in E. intuition congruence.
  - rewrite in_app_iff. cbn. intuition congruence.
Qed.
Lemma set_add_nodup l x : NoDup l -> NoDup (set_add l x).
Proof.
  unfold set_add. destruct (mem_str x l) eqn:E; [auto|]. intros N.
  apply NoDup_Add with (a := x) (l := l); [|split; [exact N|]].
  - pose proof (Add_app x l []) as A. rewrite app_nil_r in A. exact A.
  - intros H. apply mem_str_In in H. congruence.
Qed.
Lemma fold_add_spec xs : forall l y, In y (fold_left set_add xs l) <-> In y l \/ In y xs.
Proof.
  induction xs as [|x xs IH]; intros l y; cbn [fold_left In]; [intuition|].
  rewrite IH, set_add_spec. intuition congruence.
Qed.
Lemma fold_add_nodup xs : forall l, NoDup l -> NoDup (fold_left set_add xs l).
Proof. induction xs; intros; cbn [fold_left]; auto using set_add_nodup. Qed.
Lemma grants_spec rts g : In g (response_types_to_grant_types rts) <-> exists rt, In rt rts /\ In g (grant_types_of rt).
Proof.
  unfold response_types_to_grant_types.
  assert (X : forall rts acc, In g (fold_left (fun acc rt => fold_left set_add (grant_types_of rt) acc) rts acc) <->
    In g acc \/ exists rt, In rt rts /\ In g (grant_types_of rt)).
  { clear. induction rts as [|rt rts IH]; intros acc; cbn [fold_left In].
    - split; [auto|]. intros [H|(? & [] & _)]. exact H.
    - rewrite IH, fold_add_spec. split.
      + intros [[H|H]|(r & H1 & H2)]; eauto.
      + intros [H|(r & [<-|H1] & H2)]; eauto. }
  rewrite X. cbn. intuition.
Qed.
Lemma grants_nodup rts : NoDup (response_types_to_grant_types rts).
Proof.
  unfold response_types_to_grant_types.
  assert (X : forall rts acc, NoDup acc -> NoDup (fold_left (fun acc rt => fold_left set_add (grant_types_of rt) acc) rts acc)).
  { clear. induction rts; intros; cbn [fold_left]; auto using fold_add_nodup. }
  apply X. constructor.
Qed.

(** ** what the library's pre_construct methods do to request arguments *)
Lemma fold_pref_get c ps : forall args k, dget k (fold_left (add_preference c) ps args) =
  match dget k args with
  | Some v => Some v
  | None => if mem_str k ps then match dget k (behaviour c) with Some v => Some v | None => dget k (client_preferences c) end
            else None
  end.
Proof.
  induction ps as [|p ps IH]; intros args k; cbn [fold_left].
  - now destruct (dget k args).
  - rewrite IH. change (mem_str k (p :: ps)) with ((k =?s p) || mem_str k ps). unfold add_preference, dhas.
    destruct (dget p args) as [w|] eqn:Ep.
    + destruct (String.eqb_spec k p) as [->|]; [now rewrite Ep|reflexivity].
    + destruct (dget p (behaviour c)) as [b|] eqn:Eb; [|destruct (dget p (client_preferences c)) as [b|] eqn:Ec];
        try rewrite dget_dset; destruct (String.eqb_spec k p) as [->|N];
        rewrite ?eqb_refl, ?Ep, ?Eb, ?Ec, ?(eqb_neq p k) by congruence; cbn [orb]; try reflexivity.
      now destruct (mem_str p ps).
Qed.
Lemma fill_other c args k j : j <> k -> dget j (fill_callback c args k) = dget j args.
Proof.
  intros N. unfold fill_callback. destruct (otruthy (dget k args)); [reflexivity|].
  destruct (if otruthy (dget k (register_args c)) then _ else _) as [v|]; [|reflexivity].
  destruct (truthy v); [|reflexivity]. apply dget_dset_neq. congruence.
Qed.
Lemma fold_fill_other c ks : forall args j, ~ In j ks -> dget j (fold_left (fill_callback c) ks args) = dget j args.
Proof.
  induction ks as [|k ks IH]; intros args j H; cbn [fold_left]; [reflexivity|].
  rewrite IH by (intros X; apply H; now right). apply fill_other. intros ->. apply H. now left.
Qed.
Lemma fold_fill_get c : forall ks args k, In k ks -> NoDup ks -> dget k (fold_left (fill_callback c) ks args) = dget k (fill_callback c args k).
Proof.
  induction ks as [|j ks IH]; intros args k H N; [destruct H|]. inversion N; subst. cbn [fold_left].
  destruct (String.eqb_spec k j) as [->|Hn].
  - now rewrite fold_fill_other.
  - destruct H as [->|H]; [congruence|]. rewrite (IH _ k H) by assumption.
    unfold fill_callback at 1 3. rewrite fill_other by congruence.
    destruct (otruthy (dget k args)); [now rewrite fill_other|].
    destruct (if otruthy (dget k (register_args c)) then _ else _) as [v|]; [|now rewrite fill_other].
    destruct (truthy v); [now rewrite !dget_dset_eq|now rewrite fill_other].
Qed.
Lemma CALLBACK_nodup : NoDup CALLBACK_URIS.
Proof. repeat constructor; cbn; intuition discriminate. Qed.
Lemma fill_nodup c args k : NoDup (dkeys args) -> NoDup (dkeys (fill_callback c args k)).
Proof.
  intros N. unfold fill_callback. destruct (otruthy (dget k args)); [exact N|].
  destruct (if otruthy (dget k (register_args c)) then _ else _) as [v|]; [|exact N].
  destruct (truthy v); [now apply NoDup_dset|exact N].
Qed.
Lemma fold_fill_nodup c ks : forall args, NoDup (dkeys args) -> NoDup (dkeys (fold_left (fill_callback c) ks args)).
Proof. induction ks; intros; cbn [fold_left]; auto using fill_nodup. Qed.
Lemma pref_nodup c args p : NoDup (dkeys args) -> NoDup (dkeys (add_preference c args p)).
Proof.
  intros N. unfold add_preference. destruct (dhas p args); [exact N|].
  destruct (dget p (behaviour c)); [now apply NoDup_dset|]. destruct (dget p (client_preferences c)); [now apply NoDup_dset|exact N].
Qed.
Lemma fold_pref_nodup c ps : forall args, NoDup (dkeys args) -> NoDup (dkeys (fold_left (add_preference c) ps args)).
Proof. induction ps; intros; cbn [fold_left]; auto using pref_nodup. Qed.

(** the arguments after the three pre_construct methods *)
Definition with_keys (c : ctx) (args : dict val) : dict val :=
  if dhas "jwks_uri" args then ddel "jwks" args
  else if dhas "jwks" args then args
  else match key_attr c "jwks_uri" with
       | Some v => dset "jwks_uri" v args
       | None => match key_attr c "jwks" with Some v => dset "jwks" v args | None => args end
       end.
Definition reg_final (req : msg) : res msg :=
  let! req1 := match dget "response_types" req with
               | None => Ok req
               | Some v => let! g := grant_types_for v in Ok (dset "grant_types" (strs g) req)
               end in
  Ok (if dhas "jwks_uri" req1 && dhas "jwks" req1 then ddel "jwks" req1 else req1).

Lemma with_keys_nodup c args : NoDup (dkeys args) -> NoDup (dkeys (with_keys c args)).
Proof.
  intros N. unfold with_keys. destruct (dhas "jwks_uri" args); [now apply NoDup_ddel|].
  destruct (dhas "jwks" args); [exact N|].
  destruct (key_attr c "jwks_uri"); [now apply NoDup_dset|]. destruct (key_attr c "jwks"); [now apply NoDup_dset|exact N].
Qed.
Lemma state_default_reg sha seed vrf upd conf kw a : state_default (registration_service sha seed vrf upd conf) kw a = a.
Proof. unfold state_default. now destruct (dget "state" kw). Qed.

Lemma pref_run ps args post k c :
  add_client_behaviour_preference ps args post k c = (Ok (fold_left (add_preference c) ps args, post), c).
Proof. reflexivity. Qed.
Lemma callback_run sha seed args post k c : add_callback_uris sha seed args post k c =
  (Ok (fold_left (fill_callback (add_callbacks sha seed (filter (fun k => mem_str k CALLBACK_URIS) (dkeys args)) c)) CALLBACK_URIS args, post),
   add_callbacks sha seed (filter (fun k => mem_str k CALLBACK_URIS) (dkeys args)) c).
Proof. reflexivity. Qed.
Lemma keys_run a post k d : add_jwks_uri_or_jwks a post k d = (Ok (with_keys d a, post), d).
Proof. reflexivity. Qed.
(** [wp] extends [args] with the behaviour and preferences of [c] *)
Definition extends_prefs (c : ctx) (args wp : dict val) : Prop := (NoDup (dkeys args) -> NoDup (dkeys wp)) /\ forall k, dget k wp =
  match dget k args with
  | Some v => Some v
  | None => if mem_str k (dkeys registration_params)
            then match dget k (behaviour c) with Some v => Some v | None => dget k (client_preferences c) end else None
  end.
Definition reg_ctx (sha : string -> string) (seed : string) (c : ctx) (wp : dict val) : ctx :=
  add_callbacks sha seed (filter (fun k => mem_str k CALLBACK_URIS) (dkeys wp)) c.
Definition reg_args (c1 : ctx) (wp : dict val) : dict val := with_keys c1 (fold_left (fill_callback c1) CALLBACK_URIS wp).
Lemma run_pre_reg sha seed ps args post k c :
  run_pre [add_client_behaviour_preference ps; add_callback_uris sha seed; add_jwks_uri_or_jwks] args post k c =
  let wp := fold_left (add_preference c) ps args in (Ok (reg_args (reg_ctx sha seed c wp) wp, post), reg_ctx sha seed c wp).
Proof.
  cbn [run_pre]. unfold bind at 1. rewrite pref_run. cbn [fst snd]. unfold bind at 1. rewrite callback_run. cbn [fst snd].
  unfold bind. rewrite keys_run. cbv zeta. reflexivity.
Qed.
Lemma reg_pre sha seed vrf upd conf args kw c : exists wp, extends_prefs c args wp /\
  do_pre_construct (registration_service sha seed vrf upd conf) args kw c =
  (Ok (reg_args (reg_ctx sha seed c wp) wp, []), reg_ctx sha seed c wp).
Proof.
  unfold do_pre_construct.
  change (s_pre (registration_service sha seed vrf upd conf)) with
    [add_client_behaviour_preference (dkeys registration_params); add_callback_uris sha seed; add_jwks_uri_or_jwks].
  generalize (method_args (registration_service sha seed vrf upd conf) "pre_construct" kw) as k. intros k.
  unfold extends_prefs. generalize (dkeys registration_params) as ps. intros ps. rewrite run_pre_reg. cbv zeta.
  eexists. split; [|reflexivity]. split; [apply fold_pref_nodup|]. apply fold_pref_get.
Qed.
Lemma reg_post sha seed vrf upd conf req kw c :
  do_post_construct (registration_service sha seed vrf upd conf) req kw c = (reg_final req, c).
Proof.
  unfold do_post_construct, reg_final. change (s_post (registration_service sha seed vrf upd conf)) with [registration_post].
  unfold run_post, bind, registration_post, lift, ret, bind.
  now destruct (match dget "response_types" req with None => _ | Some _ => _ end).
Qed.
Lemma pair_inv {A B} (a a' : A) (b b' : B) : (a, b) = (a', b') -> a = a' /\ b = b'.
Proof. intros H. split; congruence. Qed.
Lemma ok_inv {A} (a b : A) : Ok a = Ok b -> a = b.
Proof. congruence. Qed.
Lemma reg_args_nodup c1 wp : NoDup (dkeys wp) -> NoDup (dkeys (reg_args c1 wp)).
Proof. intros N. apply with_keys_nodup. now apply fold_fill_nodup. Qed.
Lemma reg_construct sha seed vrf upd conf args kw c req c' : NoDup (dkeys args) ->
  construct (registration_service sha seed vrf upd conf) args kw c = (Ok req, c') ->
  exists wp out req0, extends_prefs c args wp /\ c' = reg_ctx sha seed c wp /\
    gather_request_args (registration_service sha seed vrf upd conf) c' (reg_args c' wp) = Ok out /\
    NoDup (dkeys out) /\ msg_new cRegistrationRequest out = Ok req0 /\ reg_final req0 = Ok req.
Proof.
  intros N H. apply construct_inv in H. destruct H as (a1 & post & c1 & out & req0 & H1 & H2 & H3 & H4).
  rewrite state_default_reg in H2. destruct (reg_pre sha seed vrf upd conf args kw c) as (wp & Hwp & E). rewrite E in H1. rewrite reg_post in H4.
  exists wp, out, req0. split; [exact Hwp|].
  apply pair_inv in H1. destruct H1 as [H1 Ec1]. apply ok_inv, pair_inv in H1. destruct H1 as [Ea _].
  apply pair_inv in H4. destruct H4 as [H4 Ec].
  subst a1. rewrite Ec1 in H2. subst c1. split; [congruence|]. rewrite Ec in H2.
  split; [exact H2|]. split; [|split; assumption].
  destruct (gather_any (registration_service sha seed vrf upd conf) _ _ _ eq_refl H2) as [G _]. apply G.
  apply reg_args_nodup. now apply Hwp.
Qed.
Lemma reg_final_get req0 req : reg_final req0 = Ok req -> forall k, k <> "grant_types" -> k <> "jwks" -> dget k req = dget k req0.
Proof.
  unfold reg_final. intros H k N1 N2.
  assert (X : forall r1, dget k r1 = dget k req0 -> dget k (if dhas "jwks_uri" r1 && dhas "jwks" r1 then ddel "jwks" r1 else r1) = dget k req0).
  { intros r1 E. destruct (dhas "jwks_uri" r1 && dhas "jwks" r1); [|exact E]. rewrite dget_ddel_neq by congruence. exact E. }
  destruct (dget "response_types" req0) as [v|]; cbn [rbind] in H.
  - destruct (grant_types_for v) as [g|]; cbn [rbind] in H; [|discriminate]. injection H as <-. apply X.
    apply dget_dset_neq. congruence.
  - injection H as <-. now apply X.
Qed.
Lemma reg_final_jwks req0 req : reg_final req0 = Ok req ->
  dget "jwks" req = if dhas "jwks_uri" req0 then None else dget "jwks" req0.
Proof.
  unfold reg_final. intros H.
  assert (X : forall r1 : msg, dget "jwks_uri" r1 = dget "jwks_uri" req0 -> dget "jwks" r1 = dget "jwks" req0 ->
    dget "jwks" (if dhas "jwks_uri" r1 && dhas "jwks" r1 then ddel "jwks" r1 else r1) = if dhas "jwks_uri" req0 then None else dget "jwks" req0).
  { intros r1 E1 E2. unfold dhas. rewrite E1, E2. destruct (dget "jwks_uri" req0); cbn [andb]; [|exact E2].
    destruct (dget "jwks" req0) eqn:E3; [apply dget_ddel_eq|]. congruence. }
  destruct (dget "response_types" req0) as [v|]; cbn [rbind] in H.
  - destruct (grant_types_for v) as [g|]; cbn [rbind] in H; [|discriminate]. injection H as <-.
    apply X; apply dget_dset_neq; discriminate.
  - injection H as <-. now apply X.
Qed.
Lemma shown_reg k v : shown cRegistrationRequest k v = Some v.
Proof. reflexivity. Qed.
Lemma reg_msg_get out req0 : NoDup (dkeys out) -> msg_new cRegistrationRequest out = Ok req0 -> forall k,
  dget k req0 = match dget k out with
                | Some v => if skipped v then dget k (c_default cRegistrationRequest) else Some v
                | None => dget k (c_default cRegistrationRequest)
                end.
Proof. intros N H k. rewrite (msg_new_get _ _ _ N H k). now destruct (dget k out). Qed.

(** ** callbacks *)
Lemma cmp_spec d attr v : cmp_ (dget attr d) v = true <-> has_value d attr v.
Proof.
  unfold has_value, cmp_. destruct (dget attr d) as [w|] eqn:E.
  - assert (X : forall w, val_eqb w v = true <-> Some w = Some v).
    { intros w0. rewrite val_eqb_eq. intuition congruence. }
    destruct w as [|b|z|s|l|dd]; try (rewrite X; split; [auto|intros [H|(l & H & _)]; [exact H|discriminate]]).
    rewrite orb_true_iff, X. split.
    + intros [H|H]; [right|now left]. exists l. split; [reflexivity|].
      apply existsb_exists in H. destruct H as (x & Hx & Hv). apply val_eqb_eq in Hv. now subst.
    + intros [H|(l' & H & Hi)]; [now right|left]. injection H as ->. apply existsb_exists. exists v.
      split; [exact Hi|now apply val_eqb_eq].
  - split; [discriminate|]. intros [H|(l & H & _)]; discriminate.
Qed.
Lemma configured_spec conf attr v : in_config_or_preferences conf attr v = true <-> configured conf attr v.
Proof.
  unfold in_config_or_preferences, configured. rewrite orb_true_iff, !cmp_spec. split.
  - intros [H|H]; [|now left]. right. revert H. destruct (dget "client_preferences" conf) as [v0|]; [destruct v0 as [| | | | |d]|];
      intros H; try (destruct H as [H|(? & H & _)]; discriminate). now exists d.
  - intros [H|(d & -> & H)]; [now right|now left].
Qed.

Definition cb_url (sha : string -> string) (seed : string) (c : ctx) (p : string) : val :=
  VStr (base_url c ++ "/" ++ p ++ "/" ++ sha (seed ++ issuer c))%string.
Lemma cbs_get (hex base : string) u k : dget k (create_callbacks hex base u) =
  let url (p : string) := VStr (base ++ "/" ++ p ++ "/" ++ hex)%string in
  if k =?s "__hex" then Some (VStr hex)
  else if k =?s "code" then if u_code u then Some (url "authz_cb") else None
  else if k =?s "implicit" then if u_implicit u then Some (url "authz_im_cb") else None
  else if k =?s "form_post" then if u_form_post u then Some (url "authz_fp_cb") else None
  else if k =?s "request_uris" then if u_request u then Some (url "req_uri") else None
  else if k =?s "post_logout_redirect_uris" then if u_back u || u_front u then Some (VList [url "session_logout"]) else None
  else if k =?s "backchannel_logout_uri" then if u_back u then Some (url "bc_logout") else None
  else if k =?s "frontchannel_logout_uri" then if u_front u then Some (url "fc_logout") else None
  else None.
Proof.
  cbv zeta. unfold create_callbacks. cbv zeta. rewrite !dget_app.
  repeat match goal with |- context [k =?s ?x] => destruct (String.eqb_spec k x) as [->|?] end;
    destruct (u_code u), (u_implicit u), (u_form_post u), (u_request u), (u_back u), (u_front u);
    try reflexivity; cbn [orb dget app];
    repeat match goal with H : k <> ?x |- context [?x =?s k] => rewrite (eqb_neq x k) by congruence end; reflexivity.
Qed.
Lemma cbs_In hex base u k v : In (k, v) (create_callbacks hex base u) -> k = "__hex" \/
  exists p, In p ["authz_cb"; "authz_im_cb"; "authz_fp_cb"; "req_uri"; "session_logout"; "bc_logout"; "fc_logout"] /\
    (v = VStr (base ++ "/" ++ p ++ "/" ++ hex)%string \/ v = VList [VStr (base ++ "/" ++ p ++ "/" ++ hex)%string]).
Proof.
  unfold create_callbacks. cbv zeta. rewrite !in_app_iff. intros H.
  assert (X : forall b l, In (k, v) (if b : bool then l else []) -> In (k, v) l) by (intros [|] l; [auto|intros []]).
  destruct H as [H|[H|[H|[H|[H|[H|[H|H]]]]]]]; try apply X in H; cbn [In] in H; destruct H as [H|[]];
    apply pair_inv in H; destruct H as [<- <-]; [now left|right..];
    [exists "authz_cb"|exists "authz_im_cb"|exists "authz_fp_cb"|exists "req_uri"|exists "session_logout"|exists "bc_logout"|exists "fc_logout"];
    (split; [cbn; tauto|(left; reflexivity) || (right; reflexivity)]).
Qed.
Definition redirect_list (cbs : dict val) : list val :=
  map snd (filter (fun kv => mem_str (fst kv) ["code"; "implicit"; "form_post"]) cbs).
Lemma redirect_list_In cbs k v : dget k cbs = Some v -> In k ["code"; "implicit"; "form_post"] -> In v (redirect_list cbs).
Proof.
  intros H K. apply in_map_iff. exists (k, v). split; [reflexivity|]. apply filter_In. split; [now apply dget_In|].
  now apply mem_str_In.
Qed.
(** the same with everything but what is needed later hidden *)
Lemma reg_construct2 sha seed vrf upd conf args kw c req c' : NoDup (dkeys args) ->
  construct (registration_service sha seed vrf upd conf) args kw c = (Ok req, c') ->
  (exists cb, c' = set_callback cb c) /\ exists wu out req0,
    (forall k, ~ In k CALLBACK_URIS -> dget k wu =
       match dget k args with
       | Some v => Some v
       | None => if mem_str k (dkeys registration_params)
                 then match dget k (behaviour c) with Some v => Some v | None => dget k (client_preferences c) end else None
       end) /\
    gather_request_args (registration_service sha seed vrf upd conf) c' (with_keys c' wu) = Ok out /\
    NoDup (dkeys out) /\ msg_new cRegistrationRequest out = Ok req0 /\ reg_final req0 = Ok req.
Proof.
  intros N H. apply reg_construct in H; [|exact N]. destruct H as (wp & out & req0 & [_ Hwp] & Hc & H). split.
  - unfold reg_ctx, add_callbacks in Hc. eexists. exact Hc.
  - exists (fold_left (fill_callback c') CALLBACK_URIS wp), out, req0. split; [|exact H].
    intros k Hk. rewrite fold_fill_other by exact Hk. apply Hwp.
Qed.
Lemma fill_redirect wp c1 l : dget "redirect_uris" wp = None -> dget "redirect_uris" (register_args c1) = None ->
  dget "redirect_uris" (callback c1) = Some l -> truthy l = true ->
  dget "redirect_uris" (fold_left (fill_callback c1) CALLBACK_URIS wp) = Some l.
Proof.
  intros H1 H2 H3 H4. rewrite fold_fill_get; [|cbn; tauto|apply CALLBACK_nodup].
  unfold fill_callback. rewrite H1, H2. cbn [otruthy]. rewrite H3, H4. apply dget_dset_eq.
Qed.
Lemma ignored' (wp : dict val) k : dget k wp = None \/ ~ In k CALLBACK_URIS ->
  mem_str k (filter (fun k => mem_str k CALLBACK_URIS) (dkeys wp)) = false.
Proof.
  intros H. destruct (mem_str k _) eqn:E; [|reflexivity]. apply mem_str_In, filter_In in E. destruct E as [E1 E2].
  destruct H as [H|H]; [apply dget_None_In in H; contradiction|]. now apply mem_str_In in E2.
Qed.
Lemma reg_construct3 sha seed vrf upd conf args kw c req c' : NoDup (dkeys args) ->
  construct (registration_service sha seed vrf upd conf) args kw c = (Ok req, c') ->
  dget "redirect_uris" args = None -> dget "redirect_uris" (behaviour c) = None -> dget "redirect_uris" (client_preferences c) = None ->
  dget "redirect_uris" (register_args c) = None ->
  exists ig out req0,
    mem_str "redirect_uris" ig = false /\ mem_str "form_post" ig = false /\ c' = add_callbacks sha seed ig c /\
    (forall l, dget "redirect_uris" (callback c') = Some l -> truthy l = true -> dget "redirect_uris" out = Some l) /\
    NoDup (dkeys out) /\ msg_new cRegistrationRequest out = Ok req0 /\ reg_final req0 = Ok req.
Proof.
  intros N H Ha Hb Hp Hr. apply reg_construct in H; [|exact N]. destruct H as (wp & out & req0 & [_ Hwp] & Hc & G & No & Hn & Hf).
  assert (Hw : dget "redirect_uris" wp = None).
  { rewrite Hwp, Ha, Hb, Hp. now destruct (mem_str _ _). }
  unfold reg_args in G. unfold reg_ctx in Hc.
  exists (filter (fun k => mem_str k CALLBACK_URIS) (dkeys wp)), out, req0.
  split; [apply ignored'; now left|]. split; [apply ignored'; right; cbn; intuition discriminate|].
  split; [exact Hc|]. split; [|auto].
  assert (Hr' : register_args c' = register_args c) by (rewrite Hc; reflexivity).
  intros l Hl Ht. rewrite <- Hr' in Hr. pose proof (fill_redirect wp c' l Hw Hr Hl Ht) as F.
  destruct (gather_any (registration_service sha seed vrf upd conf) _ _ _ eq_refl G) as [_ S1]. apply S1.
  revert F. generalize (fold_left (fill_callback c') CALLBACK_URIS wp) as wu. intros wu F.
  unfold with_keys. destruct (dhas "jwks_uri" _); [rewrite dget_ddel_neq by discriminate; exact F|].
  destruct (dhas "jwks" _); [exact F|]. destruct (key_attr c' "jwks_uri"); [rewrite dget_dset_neq by discriminate; exact F|].
  destruct (key_attr c' "jwks"); [rewrite dget_dset_neq by discriminate|]; exact F.
Qed.

(** ** computations that keep the credentials *)
Definition same_client (c c' : ctx) : Prop :=
  client_id c' = client_id c /\ client_secret c' = client_secret c /\ registration_response c' = registration_response c.
Definition keeps {A} (m : M A) : Prop := forall c, same_client c (snd (m c)).
Lemma keeps_self {A} (m : M A) : (forall c, snd (m c) = c) -> keeps m.
Proof. intros H c. rewrite H. repeat split. Qed.
Lemma keeps_bind {A B} (m : M A) (f : A -> M B) : keeps m -> (forall a, keeps (f a)) -> keeps (bind m f).
Proof.
  intros H1 H2 c. unfold bind. pose proof (H1 c) as E. destruct (m c) as [[a|e] c1]; cbn in *; [|exact E].
  pose proof (H2 a c1) as E2. unfold same_client in *. intuition congruence.
Qed.
Lemma keeps_reg_construct sha seed vrf upd conf args kw : keeps (construct (registration_service sha seed vrf upd conf) args kw).
Proof.
  unfold construct. apply keeps_bind.
  - intros c. destruct (reg_pre sha seed vrf upd conf args kw c) as (wp & _ & ->). cbn [snd]. repeat split.
  - intros [a1 post]. apply keeps_bind; [apply keeps_self; reflexivity|]. intros a3.
    apply keeps_bind; [apply keeps_self; reflexivity|]. intros req. apply keeps_self. intros c. rewrite reg_post. reflexivity.
Qed.
Lemma keeps_grp E s args m b au kw : s_extra s = [] -> keeps (construct s args kw) -> keeps (get_request_parameters E s args m b au kw).
Proof.
  intros X H. unfold get_request_parameters. apply keeps_bind; [apply keeps_self; reflexivity|]. intros a. apply keeps_bind; [exact H|].
  intros req. apply keeps_bind; [apply keeps_self; reflexivity|]. intros iss. apply keeps_bind.
  { unfold get_headers. apply keeps_bind; [apply keeps_self; reflexivity|]. intros mt. apply keeps_bind; [apply keeps_self; reflexivity|]. intros hr.
    apply keeps_bind; [|intros; apply keeps_self; reflexivity]. rewrite X. apply keeps_self; reflexivity. }
  intros [h r]. apply keeps_bind. { destruct (dget "endpoint" kw); apply keeps_self; reflexivity. }
  intros ep. destruct ep; try (apply keeps_self; reflexivity). apply keeps_bind; [apply keeps_self; reflexivity|]. intros u.
  destruct (_ =?s "POST"); [|apply keeps_self; reflexivity]. apply keeps_bind; [apply keeps_self; reflexivity|]. intros; apply keeps_self; reflexivity.
Qed.
