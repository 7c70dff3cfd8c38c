(** What the calls of the handler do to the session store is a sequence of the
    operations of S_State.v. *)
From Verif Require Import Base BaseP Json JsonP Msg M_State S_State P_State M_Ctx M_Codec M_Authz M_ClientAuth
  M_Service M_Token M_Handler S_Service S_Token S_Handler S_Flow S_Trace P_Ctx P_Authz P_Codec P_ClientAuth P_Service P_Wire P_Token
  P_Handler P_Flow.
From Coq Require Import DecimalString.

(** ** databases that hold sessions, index entries and reference entries only *)
Definition closed (K : string -> Prop) (d : db) : Prop :=
  forall q t, dget q d = Some t ->
    K q \/ (exists x v, In x kinds /\ q = idx x v /\ K t) \/
    (exists k refs, K k /\ q = ref_key k /\ t = json_dumps (refs_val refs) /\ Forall (fun xv => In (fst xv) kinds) refs).
Definition no_dict (K : string -> Prop) : Prop := forall k, K k -> forall d, json_loads k <> Some (VDict d).

Definition alnum_first (c : ascii) : bool :=
  negb (is_alnum c) || (negb (is_ws c) && negb (Ascii.eqb c cquote) && negb (Ascii.eqb c "["%char) && negb (Ascii.eqb c "{"%char)).
Lemma alnum_first_all c : alnum_first c = true.
Proof. revert c. apply (ascii_sweep _ alnum_first); [auto|vm_compute; reflexivity]. Qed.
Lemma rnd32_no_dict : no_dict rnd32.
Proof.
  intros k [Hl Ha] d H. destruct k as [|c r]; [discriminate|]. cbn in Ha. apply andb_true_iff in Ha. destruct Ha as [Ha _].
  pose proof (alnum_first_all c) as F. unfold alnum_first in F. rewrite Ha in F. cbn in F. rewrite !andb_true_iff, !negb_true_iff in F.
  destruct F as [[[F1 F2] F3] F4]. unfold json_loads in H. cbn [pval skip_ws] in H. rewrite F1, F2, F3, F4 in H.
  destruct (starts_with "null" (String c r)); [destruct (skip_ws _); discriminate|].
  destruct (starts_with "true" (String c r)); [destruct (skip_ws _); discriminate|].
  destruct (starts_with "false" (String c r)); [destruct (skip_ws _); discriminate|].
  unfold pnum in H. destruct (span num_char (String c r)) as [a b]. destruct (NilZero.int_of_string a); [|discriminate].
  destruct a; [discriminate|]. destruct (skip_ws b); discriminate.
Qed.

Section Closed.
  Variable K : string -> Prop.
  Hypothesis HK : key_family K.
  Hypothesis HN : no_dict K.

  Lemma closed_nil : closed K []. Proof. intros q t H. discriminate. Qed.
  Lemma closed_set_K k t d : K k -> closed K d -> closed K (dset k t d).
  Proof.
    intros Hk C q u H. destruct (String.eqb_spec k q) as [->|n]; [auto|]. rewrite dget_dset_neq in H by assumption. now apply C.
  Qed.
  Lemma closed_del k d : closed K d -> closed K (ddel k d).
  Proof.
    intros C q u H. apply C. destruct (String.eqb_spec k q) as [->|n].
    - rewrite dget_ddel_eq in H. discriminate.
    - now rewrite dget_ddel_neq in H.
  Qed.
  Lemma closed_remove_refs refs : forall d, closed K d -> closed K (snd (remove_refs refs d)).
  Proof.
    induction refs as [|[x w] r IH]; intros d C; cbn; [assumption|]. destruct w; try assumption.
    destruct (index_key x s); [|assumption]. destruct (dhas a d); [|assumption]. now apply IH, closed_del.
  Qed.
  Lemma closed_ref_text k d t : closed K d -> K k -> dget (ref_key k) d = Some t ->
    exists refs, t = json_dumps (refs_val refs) /\ Forall (fun xv => In (fst xv) kinds) refs.
  Proof.
    intros C Hk H. destruct HK as (_ & _ & K3 & _). destruct (C _ _ H) as [A|[(x & v & A & B & _)|(k' & refs & A & B & D & E)]].
    - exfalso. now apply (K3 (ref_key k) k).
    - exfalso. symmetry in B. now apply idx_ref in B.
    - eauto.
  Qed.
  Lemma closed_step d o : closed K d -> op_ok K o -> closed K (snd (cstep d o)).
  Proof.
    intros C Ho. destruct o as [rnd iss key|c m t k|x v k|k]; cbn [cstep op_ok] in *.
    - unfold create_state, created_key in *. destruct (key =?s ""); [|destruct (_ && _); [assumption|]];
        (destruct (msg_new _ _); cbn [snd]; [now apply closed_set_K|assumption]).
    - destruct Ho as [Ho _]. assert (G : closed K (snd (store_item (IMsg c m) t k d))).
      { unfold store_item. destruct (match get_state d k with Ok _ => _ | Err _ => _ end); [|assumption].
        destruct (msg_set _ _ _ _); [|assumption]. cbn [snd]. now apply closed_set_K. }
      destruct (store_item (IMsg c m) t k d). exact G.
    - destruct Ho as [Hk Hx]. assert (G : closed K (snd (store_x2state v k x d))).
      { unfold store_x2state. rewrite (index_key_ok x v Hx).
        assert (C1 : closed K (dset (idx x v) k d)).
        { intros q u H. destruct (String.eqb_spec (idx x v) q) as [<-|n].
          - rewrite dget_dset_eq in H. injection H as <-. right; left. eauto.
          - rewrite dget_dset_neq in H by assumption. now apply C. }
        assert (C2 : forall refs, Forall (fun xv => In (fst xv) kinds) refs ->
           closed K (dset (ref_key k) (json_dumps (refs_val refs)) (dset (idx x v) k d))).
        { intros refs Hr q u H. destruct (String.eqb_spec (ref_key k) q) as [<-|n].
          - rewrite dget_dset_eq in H. assert (u = json_dumps (refs_val refs)) as -> by congruence. right; right. exists k, refs. auto.
          - rewrite dget_dset_neq in H by assumption. now apply C1. }
        destruct (dget (ref_key k) (dset (idx x v) k d)) as [txt|] eqn:Er.
        - destruct (closed_ref_text k _ _ C1 Hk Er) as (refs & -> & Hr). unfold refs_val. rewrite json_roundtrip. cbn [snd].
          pose proof (refs_val_set x v refs) as RV. unfold refs_val at 1 in RV. rewrite RV. apply C2.
          clear -Hr Hx. induction refs as [|[a b] r IH]; cbn [dset]; [constructor; [exact Hx|constructor]|].
          pose proof (Forall_inv Hr) as R1. pose proof (Forall_inv_tail Hr) as R2. destruct (a =?s x); (constructor; [exact R1|]); auto.
        - cbn [snd]. apply (C2 [(x, v)]). constructor; [exact Hx|constructor]. }
      destruct (store_x2state v k x d). exact G.
    - assert (G : closed K (snd (remove_state k d))).
      { unfold remove_state. destruct (dhas k d); [|assumption].
        destruct (dget (ref_key k) (ddel k d)) as [txt|]; [|now apply closed_del].
        destruct (json_loads txt) as [[]|]; try (now apply closed_del). now apply closed_remove_refs, closed_del. }
      destruct (remove_state k d). exact G.
  Qed.
  Lemma closed_run ops : forall d, closed K d -> Forall (op_ok K) ops -> closed K (snd (crun d ops)).
  Proof.
    induction ops as [|o ops IH]; intros d C Ho; [assumption|]. inversion Ho; subst. cbn [crun].
    pose proof (closed_step d o C H1) as C1. destruct (cstep d o) as [x d1]. specialize (IH d1 C1 H2).
    destruct (crun d1 ops). exact IH.
  Qed.

  (** only sessions can be read as sessions with an issuer or an item *)
  Lemma closed_state d q s t v : closed K d -> get_state d q = Ok s -> dget t s = Some v -> ~ In t kinds -> K q.
  Proof.
    intros C H Hv Hn. unfold get_state in H. destruct (dget q d) as [txt|] eqn:Eq; [|discriminate].
    destruct (txt =?s ""); [discriminate|]. destruct (C _ _ Eq) as [A|[(x & w & A & B & D)|(k & refs & A & B & D & F)]]; [exact A| |].
    - exfalso. unfold msg_from_json in H. destruct (json_loads txt) as [[]|] eqn:El; try discriminate. eapply HN; eauto.
    - exfalso. subst txt. unfold msg_from_json in H. unfold refs_val in H. rewrite json_roundtrip in H.
      assert (G : forall l m m', msg_from_dict cState l m = Ok m' -> ~ In t (dkeys l) -> dget t m = None -> dget t m' = None).
      { induction l as [|[a b] l IH]; intros m m' Hm Hnot Hnone; cbn in Hm; [now injection Hm as <-|].
        cbn [dkeys map fst In] in Hnot. destruct (skipped b); [eapply IH; [exact Hm|tauto|exact Hnone]|].
        destruct (msg_set cState a b m) as [m1|] eqn:Em; [|discriminate].
        eapply IH; [exact Hm|tauto|]. destruct (msg_set_get _ _ _ _ _ Em) as (w & _ & ->). rewrite dget_dset_neq by tauto. exact Hnone. }
      unfold msg_new in H. cbn [c_default cState] in H.
      rewrite (G _ _ _ H) in Hv; [discriminate| |reflexivity].
      intros Hin. apply Hn. clear -Hin F. unfold dkeys in Hin. rewrite map_map in Hin. apply in_map_iff in Hin. destruct Hin as ([a b] & <- & Hin).
      rewrite Forall_forall in F. exact (F _ Hin).
  Qed.
  Lemma closed_iss d q i : closed K d -> get_iss d q = Ok i -> K q.
  Proof.
    intros C H. unfold get_iss in H. destruct (get_state d q) as [s|] eqn:Es; [|discriminate].
    destruct s as [|p s]; [discriminate|]. unfold dict_get in H. destruct (dget "iss" (p :: s)) eqn:Ei; [|discriminate].
    eapply closed_state; eauto. cbn. intuition discriminate.
  Qed.
  Lemma closed_item d q cc t i : closed K d -> get_item d cc t q = Ok i -> ~ In t kinds -> K q.
  Proof.
    intros C H Hn. unfold get_item in H. destruct (get_state d q) as [s|] eqn:Es; [|discriminate].
    destruct (dget t s) eqn:Et; [|discriminate]. eapply closed_state; eauto.
  Qed.
  Lemma closed_empty d : closed K d -> get_state d "" = Err (KeyError "").
  Proof.
    intros C. unfold get_state. destruct (dget "" d) as [t|] eqn:E; [|reflexivity]. exfalso.
    destruct HK as (K1 & _). destruct (C _ _ E) as [A|[(x & v & A & B & _)|(k & refs & A & B & _)]].
    - now apply K1 in A.
    - assert (idx x v <> "") as X; [|now apply X]. cbn in A. intuition (subst; discriminate).
    - discriminate.
  Qed.
End Closed.

(** ** computations as sequences of store operations *)
Lemma crun_app a : forall b d, snd (crun d (a ++ b)) = snd (crun (snd (crun d a)) b).
Proof.
  induction a as [|o a IH]; intros b d; [reflexivity|]. cbn [app crun]. destruct (cstep d o) as [x d1]. specialize (IH b d1).
  destruct (crun d1 (a ++ b)). destruct (crun d1 a). exact IH.
Qed.
Lemma crun_one d o : snd (crun d [o]) = snd (cstep d o).
Proof. cbn. now destruct (cstep d o). Qed.

Section Writes.
  Variable K : string -> Prop.
  Hypothesis HK : key_family K.
  Hypothesis HN : no_dict K.

  (** nothing but the database of the client's context changes *)
  Variable c00 : ctx.
  Definition good (c : ctx) : Prop := closed K (sdb c) /\ c = set_db (sdb c) c00.

  Definition writes_at (P : op -> Prop) {A} (m : M A) (Q : A -> Prop) (c : ctx) : Prop :=
    forall r c', m c = (r, c') ->
      c' = set_db (sdb c') c /\
      (exists ops, Forall (fun o => op_ok K o /\ P o) ops /\ sdb c' = snd (crun (sdb c) ops)) /\
      (forall a, r = Ok a -> Q a).
  Definition writes (P : op -> Prop) {A} (m : M A) (Q : A -> Prop) : Prop := forall c, good c -> writes_at P m Q c.

  Lemma closed_after c c' P ops : good c -> c' = set_db (sdb c') c -> Forall (fun o => op_ok K o /\ P o) ops ->
    sdb c' = snd (crun (sdb c) ops) -> good c'.
  Proof.
    intros [C I] S F D. split; [rewrite D; apply closed_run; [assumption|assumption|]; eapply Forall_impl; [|exact F]; cbn; tauto|]. rewrite S, I. reflexivity.
  Qed.
  Lemma wa_pure (P : op -> Prop) {A} (m : M A) (Q : A -> Prop) c : snd (m c) = c -> (forall a, fst (m c) = Ok a -> Q a) -> writes_at P m Q c.
  Proof.
    intros H1 H2 r c' E. rewrite E in *. cbn in *. subst c'. split; [now rewrite set_db_same|]. split; [exists []; split; [constructor|reflexivity]|]. exact H2.
  Qed.
  Lemma w_pure (P : op -> Prop) {A} (m : M A) (Q : A -> Prop) : (forall c, snd (m c) = c) -> (forall c a, fst (m c) = Ok a -> Q a) -> writes P m Q.
  Proof. intros H1 H2 c C. apply wa_pure; eauto. Qed.
  Lemma wa_bind (P : op -> Prop) {A B} (m : M A) (f : A -> M B) Q R c : good c -> writes_at P m Q c ->
    (forall a c', m c = (Ok a, c') -> Q a -> good c' -> writes_at P (f a) R c') -> writes_at P (bind m f) R c.
  Proof.
    intros C H1 H2 r c' E. unfold bind in E. destruct (m c) as [[a|e] c1] eqn:Em.
    - destruct (H1 _ _ Em) as (A1 & (o1 & A2 & A3) & A4).
      assert (C1 : good c1) by (eapply closed_after; eauto).
      destruct (H2 a c1 eq_refl (A4 a eq_refl) C1 _ _ E) as (B1 & (o2 & B2 & B3) & B4).
      split; [rewrite B1, A1; reflexivity|]. split; [|exact B4]. exists (o1 ++ o2). split; [now apply Forall_app|].
      now rewrite crun_app, <- A3.
    - injection E as <- <-. destruct (H1 _ _ Em) as (A1 & A2 & A4). split; [exact A1|]. split; [exact A2|]. discriminate.
  Qed.
  Lemma w_bind (P : op -> Prop) {A B} (m : M A) (f : A -> M B) Q R : writes P m Q -> (forall a, Q a -> writes P (f a) R) -> writes P (bind m f) R.
  Proof. intros H1 H2 c C. eapply wa_bind; [exact C|now apply H1|]. intros a c' _ Ha C'. now apply H2. Qed.
  Lemma wa_post (P : op -> Prop) {A} (m : M A) (Q Q' : A -> Prop) c : writes_at P m Q c -> (forall a, Q a -> Q' a) -> writes_at P m Q' c.
  Proof. intros H1 H2 r c' E. destruct (H1 _ _ E) as (A1 & A2 & A3). split; [exact A1|]. split; [exact A2|]. eauto. Qed.
  Lemma w_post (P : op -> Prop) {A} (m : M A) (Q Q' : A -> Prop) : writes P m Q -> (forall a, Q a -> Q' a) -> writes P m Q'.
  Proof. intros H1 H2 c C. eapply wa_post; [now apply H1|assumption]. Qed.
  Lemma w_weaken (P P' : op -> Prop) {A} (m : M A) (Q : A -> Prop) : writes P m Q -> (forall o, P o -> P' o) -> writes P' m Q.
  Proof.
    intros H1 H2 c C r c' E. destruct (H1 c C _ _ E) as (A1 & (ops & A2 & A3) & A4). split; [exact A1|]. split; [|exact A4].
    exists ops. split; [|exact A3]. eapply Forall_impl; [|exact A2]. cbn. intuition.
  Qed.
  Lemma w_ret (P : op -> Prop) {A} (a : A) (Q : A -> Prop) : Q a -> writes P (ret a) Q.
  Proof. intros H. apply w_pure; [reflexivity|]. intros c b [= <-]. exact H. Qed.
  Lemma w_raise (P : op -> Prop) {A} e (Q : A -> Prop) : writes P (raise e) Q.
  Proof. apply w_pure; [reflexivity|]. discriminate. Qed.
  Lemma w_lift (P : op -> Prop) {A} (x : res A) (Q : A -> Prop) : (forall a, x = Ok a -> Q a) -> writes P (lift x) Q.
  Proof. intros H. apply w_pure; [reflexivity|]. intros c. apply H. Qed.
  Lemma w_step (P : op -> Prop) {A} (f : db -> res A * db) o (Q : A -> Prop) : op_ok K o -> P o ->
    (forall d, snd (f d) = snd (cstep d o)) -> (forall d a, fst (f d) = Ok a -> Q a) -> writes P (on_db f) Q.
  Proof.
    intros H1 H2 H3 H4 c C r c' E. unfold on_db in E. specialize (H3 (sdb c)). specialize (H4 (sdb c)).
    destruct (f (sdb c)) as [x d]. injection E as <- <-. cbn in *. split; [reflexivity|]. split; [|exact H4].
    exists [o]. split; [constructor; [auto|constructor]|]. rewrite crun_one. exact H3.
  Qed.
  Definition any {A} (_ : A) : Prop := True.
  Lemma w_store (P : op -> Prop) c m t k : K k -> t <> "iss" -> P (Store c m t k) -> writes P (on_db (store_item (IMsg c m) t k)) any.
  Proof.
    intros. eapply w_step with (o := Store c m t k); [split; assumption|assumption| |intros; exact I].
    intros d. cbn. now destruct (store_item (IMsg c m) t k d).
  Qed.
  Lemma w_bindx (P : op -> Prop) x v k : K k -> In x kinds -> P (Bind x v k) -> writes P (on_db (store_x2state v k x)) any.
  Proof.
    intros. eapply w_step with (o := Bind x v k); [split; assumption|assumption| |intros; exact I].
    intros d. cbn. now destruct (store_x2state v k x d).
  Qed.
  Lemma w_create (P : op -> Prop) rnd iss key : K (created_key rnd key) -> P (Create rnd iss key) ->
    writes P (on_db (create_state rnd iss key)) (fun k => k = created_key rnd key).
  Proof.
    intros. eapply w_step with (o := Create rnd iss key); [assumption|assumption|reflexivity|].
    intros d a Ha. destruct (create_state rnd iss key d) as [r d'] eqn:E. cbn in Ha. subst r. now destruct (create_state_effect _ _ _ _ _ _ E).
  Qed.
  Lemma w_remove (P : op -> Prop) k : K k -> P (Remove k) -> writes P (on_db (remove_state k)) any.
  Proof.
    intros. eapply w_step with (o := Remove k); [assumption|assumption| |intros; exact I].
    intros d. cbn. now destruct (remove_state k d).
  Qed.

  (** ** services *)
  Lemma w_run_pre (P : op -> Prop) ms kw : forall a p, (forall m, In m ms -> forall a p, writes P (m a p kw) any) -> writes P (run_pre ms a p kw) any.
  Proof.
    induction ms as [|m ms IH]; intros a p H; cbn [run_pre]; [now apply w_ret|].
    eapply w_bind; [apply H; now left|]. intros ap _. apply IH. intros m' Hm. apply H. now right.
  Qed.
  Lemma w_run_post (P : op -> Prop) ms kw : forall r, (forall m, In m ms -> forall r, writes P (m r kw) any) -> writes P (run_post ms r kw) any.
  Proof.
    induction ms as [|m ms IH]; intros r H; cbn [run_post]; [now apply w_ret|].
    eapply w_bind; [apply H; now left|]. intros q _. apply IH. intros m' Hm. apply H. now right.
  Qed.
  Lemma w_construct (P : op -> Prop) s args kw :
    (forall m, In m (s_pre s) -> forall a p kw, writes P (m a p kw) any) ->
    (forall m, In m (s_post s) -> forall r kw, writes P (m r kw) any) -> writes P (construct s args kw) any.
  Proof.
    intros H1 H2. unfold construct. eapply w_bind; [unfold do_pre_construct; apply w_run_pre; auto|].
    intros [a1 post] _. eapply w_bind with (Q := any); [apply w_pure; [reflexivity|intros; exact I]|].
    intros a3 _. eapply w_bind with (Q := any); [apply w_lift; intros; exact I|].
    intros req _. unfold do_post_construct. apply w_run_post. auto.
  Qed.
  Lemma w_get_headers (P : op -> Prop) E s req hm au kw : s_extra s = [] -> writes P (get_headers E s req hm au kw) any.
  Proof.
    intros He. unfold get_headers. rewrite He.
    eapply w_bind with (Q := any); [apply w_pure; [reflexivity|intros; exact I]|]. intros me _.
    eapply w_bind with (Q := any); [apply w_pure; [reflexivity|intros; exact I]|]. intros hr _.
    cbn [run_headers]. eapply w_bind with (Q := any); [now apply w_ret|]. intros h _. now apply w_ret.
  Qed.
  Lemma w_grp (P : op -> Prop) E s args m b au kw : s_extra s = [] -> writes P (construct s args kw) any ->
    writes P (get_request_parameters E s args m b au kw) any.
  Proof.
    intros He Hc. unfold get_request_parameters.
    eapply w_bind with (Q := any); [apply w_pure; [reflexivity|intros; exact I]|]. intros a _.
    eapply w_bind with (Q := any); [exact Hc|]. intros req _.
    eapply w_bind with (Q := any); [apply w_pure; [reflexivity|intros; exact I]|]. intros iss _.
    eapply w_bind with (Q := any); [now apply w_get_headers|]. intros [h r1] _.
    eapply w_bind with (Q := any).
    { destruct (dget "endpoint" kw); [now apply w_ret|]. apply w_pure; [reflexivity|intros; exact I]. }
    intros ep _. destruct ep; try apply w_raise.
    eapply w_bind with (Q := any); [apply w_lift; intros; exact I|]. intros u _.
    destruct (_ =?s "POST"); [|now apply w_ret].
    eapply w_bind with (Q := any); [apply w_lift; intros; exact I|]. intros bd _. now apply w_ret.
  Qed.
  Definition vouched (vrf : ctx -> msg -> res msg) (m : msg) : Prop := exists c m0, c = set_db (sdb c) c00 /\ vrf c m0 = Ok m.
  Definition fine (R : msg -> Prop) (m : msg) : Prop := dhas "error" m = true \/ R m.
  Lemma w_parse_response (P : op -> Prop) (R : msg -> Prop) jwt s inf fm st :
    (forall m, vouched (s_vrf s) m -> writes P (s_post_parse s m st) R) ->
    writes P (parse_response jwt s inf fm st) (fine R).
  Proof.
    intros H. unfold parse_response. destruct (mem_str _ ["jose"; "jws"; "jwe"]); [apply w_raise|].
    eapply w_bind with (Q := any); [apply w_pure; [reflexivity|intros; exact I]|]. intros resp _.
    eapply w_bind with (Q := fine R).
    - destruct (is_error_message resp) eqn:Ee; [apply w_ret; now left|]. intros c C r c' E'.
      destruct (s_vrf s c resp) as [v|e] eqn:Ev.
      { assert (V : vouched (s_vrf s) v) by (exists c, resp; split; [exact (proj2 C)|exact Ev]).
        destruct (H v V c C _ _ E') as (A1 & A2 & A3). split; [exact A1|]. split; [exact A2|]. intros a Ha. right. auto. }
      injection E' as <- <-.
      split; [now rewrite set_db_same|]. split; [exists []; split; [constructor|reflexivity]|]. discriminate.
    - intros r Hr. destruct r; [apply w_raise|now apply w_ret].
  Qed.
  Definition fine_response (R : msg -> Prop) (r : response) : Prop := match r with RMsg m => fine R m | _ => True end.
  Lemma fine_mark (R : msg -> Prop) z m : (forall m z, R m -> R (dset "status_code" z m)) -> fine R m -> fine R (dset "status_code" z m).
  Proof.
    intros H [E|E]; [left|right; auto]. unfold dhas in *. rewrite dget_dset_neq by discriminate. exact E.
  Qed.
  Lemma w_get_response (P : op -> Prop) (R : msg -> Prop) http jwt s u m b rbt h st :
    (forall m z, R m -> R (dset "status_code" z m)) ->
    (forall x, vouched (s_vrf s) x -> writes P (s_post_parse s x st) R) -> (forall x, vouched (s_vrf s) x -> writes P (s_post_parse s x "") R) ->
    writes P (get_response http jwt s u m b rbt h st) (fine_response R).
  Proof.
    intros HR H1 H2.
    unfold get_response. destruct (http u m b h) as [resp|]; [|apply w_raise].
      destruct (_ && _)%Z; [now apply w_ret|]. destruct (_ && _); [now apply w_ret|].
      unfold parse_request_response. destruct (zmem _ SUCCESSFUL).
      { eapply w_bind with (Q := fine R); [now apply w_parse_response|]. intros x Hx. now apply w_ret. }
      destruct (zmem _ _); [now apply w_ret|]. destruct (_ =? 500)%Z; [apply w_raise|].
      destruct (_ && _)%Z; [|apply w_raise].
      intros c C r c' E.
      match type of E with context [parse_response ?a ?b ?d ?e "" c] => pose proof (w_parse_response P R a b d e "" H2 c C) as W1; destruct (parse_response a b d e "" c) as [x c1] eqn:E1 end.
      destruct (W1 _ _ E1) as (A1 & (o1 & A2 & A3) & A4).
      assert (D : c' = c1 -> (forall a, r = Ok a -> fine_response R a) -> c' = set_db (sdb c') c /\
         (exists ops, Forall (fun o => op_ok K o /\ P o) ops /\ sdb c' = snd (crun (sdb c) ops)) /\ (forall a, r = Ok a -> fine_response R a)).
      { intros -> Hr. split; [exact A1|]. split; [eauto|]. exact Hr. }
      destruct x as [y|e].
      + injection E as <- <-. apply D; [reflexivity|]. intros a Ha. injection Ha as <-. cbn [fine_response]. apply fine_mark; auto.
      + destruct e; try (injection E as <- <-; apply D; [reflexivity|discriminate]).
        { injection E as <- <-. apply D; [reflexivity|]. intros a Ha. injection Ha as <-. left. reflexivity. }
        match type of E with context [if ?b then _ else _] => destruct b end; [injection E as <- <-; apply D; [reflexivity|discriminate]|].
        match type of E with context [parse_response ?a ?b ?d ?e "" c1] =>
          assert (C1 : good c1) by (eapply closed_after; eauto);
          pose proof (w_parse_response P R a b d e "" H2 c1 C1) as W2; destruct (parse_response a b d e "" c1) as [y c2] eqn:E2 end.
        destruct (W2 _ _ E2) as (B1 & (o2 & B2 & B3) & B4).
        assert (D2 : c' = c2) by (destruct y as [z|[]]; injection E as _ <-; reflexivity).
        subst c'. split; [rewrite B1, A1; reflexivity|]. split.
        * exists (o1 ++ o2). split; [now apply Forall_app|]. now rewrite crun_app, <- A3.
        * intros a Ha. destruct y as [z|[]]; injection E as <-; try discriminate. injection Ha as <-. cbn [fine_response]. apply fine_mark; auto.
  Qed.
  Lemma w_service_request (P : op -> Prop) (R : msg -> Prop) http jwt s u m b rbt h st :
    (forall m z, R m -> R (dset "status_code" z m)) ->
    (forall x, vouched (s_vrf s) x -> writes P (s_post_parse s x st) R) -> (forall x, vouched (s_vrf s) x -> writes P (s_post_parse s x "") R) ->
    (forall x, R x -> writes P (s_update s x st) any) ->
    writes P (service_request http jwt s u m b rbt h (Some st)) any.
  Proof.
    intros HR H1 H2 H3. unfold service_request. eapply w_bind with (Q := fine_response R); [now apply w_get_response|].
    intros r Hr. destruct (has_error r) eqn:Eh; [now apply w_ret|]. destruct r as [x|x|x].
    - cbn in Hr, Eh. destruct Hr as [Hr|Hr]; [congruence|]. eapply w_bind; [apply H3; exact Hr|]. intros m' _. now apply w_ret.
    - now apply w_ret.
    - destruct (s_redirect s); [apply w_raise|now apply w_ret].
  Qed.
  (** what a request of a service needs *)
  Definition req_writes (P : op -> Prop) (R : msg -> Prop) (st : string) (s : service) (args kw : dict val) : Prop :=
    dget "state" kw = Some (VStr st) /\ s_extra s = [] /\
    writes P (construct s args kw) any /\
    (forall m z, R m -> R (dset "status_code" z m)) /\
    (forall x, vouched (s_vrf s) x -> writes P (s_post_parse s x st) R) /\ (forall x, vouched (s_vrf s) x -> writes P (s_post_parse s x "") R) /\
    (forall x, R x -> writes P (s_update s x st) any).
  Lemma w_do_request (P : op -> Prop) (R : msg -> Prop) E http jwt s rbt args au kw st : req_writes P R st s args kw ->
    writes P (do_request E http jwt s rbt args au kw) any.
  Proof.
    intros (Hs & He & Hc & HR & H1 & H2 & H3). unfold do_request. eapply w_bind; [now apply w_grp|]. intros i _. rewrite Hs. now apply w_service_request with (R := R).
  Qed.

  (** ** the calls *)
  (** a message whose verified ID Token is the one the verification [vrf] gave *)
  Definition from_vrf (vrf : ctx -> msg -> res msg) (m : msg) : Prop :=
    exists v, vouched vrf v /\ dget (verified "id_token") m = dget (verified "id_token") v /\ (NoDup (dkeys v) -> NoDup (dkeys m)).
  Lemma from_vrf_self vrf v : vouched vrf v -> from_vrf vrf v.
  Proof. intros H. exists v. auto. Qed.
  Lemma from_vrf_set vrf m k w : k <> verified "id_token" -> from_vrf vrf m -> from_vrf vrf (dset k w m).
  Proof. intros N (v & H1 & H2 & H3). exists v. split; [exact H1|]. split; [now rewrite dget_dset_neq|]. intros U. now apply NoDup_dset, H3. Qed.
  Lemma from_vrf_expires vrf now m m' : add_expires_at now m = Ok m' -> from_vrf vrf m -> from_vrf vrf m'.
  Proof.
    unfold add_expires_at. destruct (dget "expires_in" m) as [e|]; [|now intros [= <-]]. destruct (to_int e); [|discriminate].
    intros [= <-]. apply from_vrf_set. discriminate.
  Qed.
  (** a verified ID Token in which [claim] is [v] *)
  Definition idt_says (vrf : ctx -> msg -> res msg) (claim v : string) : Prop :=
    exists m claims, vouched vrf m /\ dget (verified "id_token") m = Some (VDict claims) /\ dget claim claims = Some (VStr v).
  Lemma from_vrf_says vrf m claims claim v : from_vrf vrf m -> dget (verified "id_token") m = Some (VDict claims) ->
    dget claim claims = Some (VStr v) -> idt_says vrf claim v.
  Proof. intros (x & H1 & H2 & _) H3 H4. exists x, claims. split; [exact H1|]. split; [congruence|exact H4]. Qed.
  (** what a token response may write *)
  Definition token_op (vrf : ctx -> msg -> res msg) (st : string) (o : op) : Prop :=
    (exists m, from_vrf vrf m /\ o = Store cTokenResponse m "token_response" st) \/ (exists v, idt_says vrf "sub" v /\ o = Bind "subject id" v st).
  Definition refresh_op (vrf : ctx -> msg -> res msg) (st : string) (o : op) : Prop :=
    exists m, from_vrf vrf m /\ o = Store cTokenResponse m "token_response" st.
  Lemma w_store_token (P : op -> Prop) vrf now resp st : K st -> from_vrf vrf resp -> (forall o, refresh_op vrf st o -> P o) ->
    writes P (store_token_response now resp st) any.
  Proof.
    intros Hk HV HP. unfold store_token_response. destruct (add_expires_at now resp) eqn:Ea; [|apply w_raise].
    eapply w_bind; [apply w_store; [assumption|discriminate|apply HP; red; eauto using from_vrf_expires]|]. intros [] _. now apply w_ret.
  Qed.
  Lemma w_token_update (P : op -> Prop) vrf now resp st : K st -> from_vrf vrf resp -> (forall o, token_op vrf st o -> P o) ->
    writes P (oidc_token_update now resp st) any.
  Proof.
    intros Hk HV HP. unfold oidc_token_update. eapply w_bind with (Q := any); [|intros _ _; apply w_store_token with (vrf := vrf); auto; intros o Ho; apply HP; now left].
    destruct (dget (verified "id_token") resp) as [[| | | | |idt]|] eqn:Ei; try apply w_raise; [|now apply w_ret].
    intros c C. assert (PURE : forall e, writes_at P (raise (A := unit) e) any c) by (intros e; now apply w_raise).
    destruct (dget "nonce" idt) as [[| | |n| |]|]; try apply (PURE ValueError).
    unfold writes_at. destruct (get_state_by_nonce (sdb c) n) as [k|e]; [|destruct e; apply (PURE _)].
    destruct (k =?s st); [|apply (PURE ParameterError)].
    destruct (dget "sub" idt) as [[| | |sub| |]|] eqn:Es; try apply (PURE OtherError); [|apply (PURE (KeyError "sub"))].
    refine (w_bindx P "subject id" sub st Hk in_sub _ c C). apply HP. right. exists sub. split; [|reflexivity]. eapply from_vrf_says; eassumption.
  Qed.
  Lemma w_any_pure (P : op -> Prop) {A} (m : M A) : (forall c, snd (m c) = c) -> writes P m any.
  Proof. intros H. apply w_pure; [exact H|]. intros; exact I. Qed.
  Lemma token_reqw (P : op -> Prop) W cl st args : K st -> (forall o, token_op (e_vrf W "accesstoken") st o -> P o) ->
    req_writes P (from_vrf (e_vrf W "accesstoken")) st (token_svc W cl) args [("state", VStr st)].
  Proof.
    intros Hk HP.
    assert (F : s_extra (token_svc W cl) = [] /\ s_post_parse (token_svc W cl) = pass /\ s_update (token_svc W cl) = oidc_token_update (e_now W) /\
       s_pre (token_svc W cl) = (if cl_pkce cl then [token_pre (c_par cTokenRequest); put_state_in_post_args] else [token_pre (c_par cTokenRequest)]) /\
       s_post (token_svc W cl) = (if cl_pkce cl then [add_code_verifier] else []) /\ s_vrf (token_svc W cl) = e_vrf W "accesstoken").
    { unfold token_svc. destruct (cl_pkce cl); repeat split. }
    destruct F as (F1 & F2 & F3 & F4 & F5 & F6). generalize dependent (token_svc W cl). intros s F1 F2 F3 F4 F5 F6.
    split; [reflexivity|]. split; [exact F1|]. split; [|split; [intros; apply from_vrf_set; [discriminate|assumption]|split; [|split]]].
    - apply w_construct.
      + rewrite F4. intros m Hm a p kw. destruct (cl_pkce cl); cbn in Hm; intuition (subst; apply w_any_pure; reflexivity).
      + rewrite F5. intros m Hm r kw. destruct (cl_pkce cl); cbn in Hm; intuition (subst; apply w_any_pure; reflexivity).
    - rewrite F2, F6. intros x Hx. apply w_ret. now apply from_vrf_self.
    - rewrite F2, F6. intros x Hx. apply w_ret. now apply from_vrf_self.
    - rewrite F3. intros x Hx. eapply w_token_update; eauto.
  Qed.
  Lemma w_get_tokens W cl st : K st -> writes (token_op (e_vrf W "accesstoken") st) (get_tokens W cl st) any.
  Proof.
    intros Hk c C. unfold get_tokens, writes_at.
    match goal with |- context [match ?x with Ok _ => _ | Err _ => _ end] => destruct x as [[args am]|e] end.
    2:{ apply (w_raise (token_op (e_vrf W "accesstoken") st) e any c C). }
    revert C. revert c. change (writes (token_op (e_vrf W "accesstoken") st)
      (r <- do_request_named W cl (token_svc W cl) args am [("state", VStr st)];; (if is_error_response r then raise OidcServiceError else ret r)) any).
    eapply w_bind with (Q := any); [|intros r _; destruct (is_error_response r); [apply w_raise|now apply w_ret]].
    unfold do_request_named. destruct (has_service _ _); [|apply w_raise].
    eapply w_do_request. now apply token_reqw.
  Qed.
  Lemma refresh_reqw (P : op -> Prop) W cl st args : K st -> (forall o, refresh_op (e_vrf W "refresh_token") st o -> P o) ->
    req_writes P (from_vrf (e_vrf W "refresh_token")) st (refresh_svc W cl) args [("state", VStr st)].
  Proof.
    intros Hk HP.
    split; [reflexivity|]. split; [reflexivity|]. split; [|split; [intros; apply from_vrf_set; [discriminate|assumption]|split; [|split]]].
    - apply w_construct.
      + intros m Hm a p kw. cbn in Hm; intuition (subst; apply w_any_pure; reflexivity).
      + intros m Hm. contradiction.
    - intros x Hx. apply w_ret. now apply from_vrf_self.
    - intros x Hx. apply w_ret. now apply from_vrf_self.
    - intros x Hx. cbn. eapply w_store_token; eauto.
  Qed.
  Lemma w_refresh W cl st scope : K st -> writes (refresh_op (e_vrf W "refresh_token") st) (refresh_access_token W cl st scope) any.
  Proof.
    intros Hk c C. unfold refresh_access_token, writes_at.
    destruct (client_authn_method c) as [am|e].
    2:{ apply (w_raise (refresh_op (e_vrf W "refresh_token") st) e any c C). }
    generalize (if scope =?s "" then [] else [("scope", VStr scope)]). intros args.
    revert C. revert c. change (writes (refresh_op (e_vrf W "refresh_token") st)
      (r <- do_request_named W cl (refresh_svc W cl) args am [("state", VStr st)];; (if is_error_response r then raise OidcServiceError else ret r)) any).
    eapply w_bind with (Q := any); [|intros r _; destruct (is_error_response r); [apply w_raise|now apply w_ret]].
    unfold do_request_named. destruct (has_service _ _); [|apply w_raise].
    eapply w_do_request. now apply refresh_reqw.
  Qed.
  Definition userinfo_op (st : string) (o : op) : Prop := exists c m, o = Store c m "user_info" st.
  Lemma w_userinfo_post (P : op -> Prop) agg x st : K st -> (forall o, userinfo_op st o -> P o) -> writes P (userinfo_post_parse agg x st) any.
  Proof.
    intros Hk HP. unfold userinfo_post_parse. eapply w_bind with (Q := any); [now apply w_any_pure|]. intros args _.
    eapply w_bind with (Q := any); [apply w_lift; intros; exact I|]. intros _ _.
    eapply w_bind with (Q := any); [now apply w_any_pure|]. intros r _.
    eapply w_bind with (Q := any); [apply w_store; [assumption|discriminate|apply HP; red; eauto]|]. intros _ _. now apply w_ret.
  Qed.
  Lemma w_userinfo_post_empty (P : op -> Prop) agg x : writes P (userinfo_post_parse agg x "") any.
  Proof.
    intros c C. unfold userinfo_post_parse.
    assert (E : forall ps ts, multiple_extend_request_args (sdb c) [] "" ps ts false = Err (KeyError "")).
    { intros. unfold multiple_extend_request_args. now rewrite (closed_empty K HK _ (proj1 C)). }
    unfold writes_at, bind, read_db. rewrite E. intros r c' [= <- <-].
    split; [now rewrite set_db_same|]. split; [exists []; split; [constructor|reflexivity]|]. discriminate.
  Qed.
  Lemma userinfo_reqw (P : op -> Prop) W cl st args : K st -> (forall o, userinfo_op st o -> P o) ->
    req_writes P any st (userinfo_svc W cl) args [("state", VStr st)].
  Proof.
    intros Hk HP.
    split; [reflexivity|]. split; [reflexivity|]. split; [|split; [intros; exact I|split; [|split]]].
    - apply w_construct.
      + intros m Hm a p kw. cbn in Hm; intuition (subst; apply w_any_pure; reflexivity).
      + intros m Hm. contradiction.
    - intros x _. apply w_userinfo_post; auto.
    - intros x _. apply w_userinfo_post_empty.
    - intros x _. now apply w_ret.
  Qed.
  Lemma w_user_info W cl st tok : K st -> writes (userinfo_op st) (get_user_info W cl st tok) any.
  Proof.
    intros Hk. unfold get_user_info. eapply w_bind with (Q := any).
    { destruct (tok =?s ""); [|now apply w_ret]. eapply w_bind with (Q := any); [now apply w_any_pure|]. intros _ _. now apply w_ret. }
    intros _ _. eapply w_bind with (Q := any); [|intros r _; destruct (is_error_response r); [apply w_raise|now apply w_ret]].
    unfold do_request_named. destruct (has_service _ _); [|apply w_raise].
    eapply w_do_request. now apply userinfo_reqw.
  Qed.
  Definition logout_op (st : string) (o : op) : Prop := exists v, o = Bind "logout state" v st.
  Lemma w_logout W cl st uri : K st -> dget "pre_construct" (conf_of cl "end_session") = None ->
    writes (logout_op st) (logout W cl st uri) any.
  Proof.
    intros Hk PC. unfold logout. destruct (has_service _ _); [|apply w_raise].
    apply w_grp; [reflexivity|]. unfold construct.
    eapply w_bind with (Q := any).
    - unfold do_pre_construct. rewrite method_args_plain by exact PC. apply w_run_pre. intros m Hm a p. cbn in Hm.
      destruct Hm as [<-|[<-|[<-|[]]]]; [now apply w_any_pure|now apply w_any_pure|].
      unfold end_add_state. cbn [kw_state dict_get dget rbind key_arg String.eqb eqs Ascii.eqb Bool.eqb].
      destruct (dget "state" (dsetdefault "state" (VStr (e_lstate W)) a)) as [[| | |ls| |]|]; try (apply w_raise).
      eapply w_bind; [apply w_bindx; [assumption|apply in_logout|red; eauto]|]. intros _ _. now apply w_ret.
    - intros [a1 post] _. eapply w_bind with (Q := any); [now apply w_any_pure|].
      intros a3 _. eapply w_bind with (Q := any); [apply w_lift; intros; exact I|].
      intros req _. unfold do_post_construct. apply w_run_post. intros m Hm. contradiction.
  Qed.

  (** authorization response *)
  Definition authz_op (vrf : ctx -> msg -> res msg) (s : string) (o : op) : Prop := exists m, from_vrf vrf m /\ o = Store cAuthzResponse m "auth_response" s.
  (** the session the response [resp] is for *)
  Definition addressed (vrf : ctx -> msg -> res msg) (resp : dict val) (s : string) : Prop :=
    exists c1 m0 m c2, c1 = set_db (sdb c1) c00 /\ msg_new cAuthzResponse resp = Ok m0 /\
      parse_deserialised vrf oidc_authz_post_parse m0 "" c1 = (Ok m, c2) /\ is_error_message m = false /\ dget "state" m = Some (VStr s).
  Definition front_op (vrf : ctx -> msg -> res msg) (resp : dict val) (o : op) : Prop := exists s, K s /\ addressed vrf resp s /\ authz_op vrf s o.
  Lemma w_authz_update (P : op -> Prop) vrf now resp s : K s -> from_vrf vrf resp -> (forall o, authz_op vrf s o -> P o) ->
    writes P (authz_update_service_context now resp s) (from_vrf vrf).
  Proof.
    intros Hk HV HP. unfold authz_update_service_context. destruct (add_expires_at now resp) eqn:Ea; [|apply w_raise].
    eapply w_bind; [apply w_store; [assumption|discriminate|apply HP; red; eauto using from_vrf_expires]|]. intros _ _. apply w_ret. eauto using from_vrf_expires.
  Qed.
  Lemma authz_post_verified resp st c m c' : oidc_authz_post_parse resp st c = (Ok m, c') ->
    dget (verified "id_token") m = dget (verified "id_token") resp /\ (NoDup (dkeys resp) -> NoDup (dkeys m)).
  Proof.
    unfold oidc_authz_post_parse, bind. destruct (oauth2_authz_post_parse resp st c) as [[r0|e] c1] eqn:E; [|discriminate].
    assert (A : dget (verified "id_token") r0 = dget (verified "id_token") resp /\ (NoDup (dkeys resp) -> NoDup (dkeys r0))).
    { unfold oauth2_authz_post_parse in E. destruct (dhas "scope" resp); [injection E as <- _; auto|].
      destruct (st =?s ""); [injection E as <- _; auto|]. destruct (get_item _ _ _ _) as [it|]; [|discriminate].
      injection E as <- _. destruct (dget "scope" it); [|auto]. split; [now rewrite dget_dset_neq by discriminate|apply NoDup_dset]. }
    intros H. destruct A as [A B]. rewrite <- A. enough (m = r0) by (subst m; auto). clear A B. destruct (dget (verified "id_token") r0) as [idt|] eqn:Ei; [|injection H as <- _; reflexivity].
    destruct (truthy idt); [|injection H as <- _; reflexivity]. destruct (dget "state" r0) as [[| | |s| |]|]; try discriminate.
    destruct (get_item _ _ _ _) as [rq|]; [|discriminate]. destruct (dget "nonce" rq) as [n|]; [|injection H as <- _; reflexivity].
    destruct (truthy n); [|injection H as <- _; reflexivity]. destruct idt; try discriminate.
    destruct (dget "nonce" d) as [w|]; [|discriminate]. destruct (truthy w); [|discriminate]. destruct (val_eqb n w); [|discriminate].
    injection H as <- _. reflexivity.
  Qed.
  Lemma w_finalize_auth vrf now iss resp : writes (front_op vrf resp) (finalize_auth vrf now iss resp) (fine (from_vrf vrf)).
  Proof.
    unfold finalize_auth. destruct (msg_new cAuthzResponse resp) as [r0|] eqn:E0; [|apply w_raise].
    eapply w_bind with (Q := fun m => fine (from_vrf vrf) m /\ exists c1 c2, c1 = set_db (sdb c1) c00 /\
      parse_deserialised vrf oidc_authz_post_parse r0 "" c1 = (Ok m, c2)).
    { intros c C. apply wa_pure.
      - destruct (parse_deserialised vrf oidc_authz_post_parse r0 "" c) as [x c1] eqn:E.
        apply parse_deserialised_pure in E; [subst; reflexivity|exact oidc_post_parse_pure].
      - intros m Hm. split.
        2:{ destruct (parse_deserialised vrf oidc_authz_post_parse r0 "" c) as [x c1] eqn:E. cbn in Hm. subst x. exists c, c1. split; [exact (proj2 C)|exact E]. }
        revert Hm. unfold parse_deserialised, bind. destruct (is_error_message r0) eqn:Ee.
        + cbn. destruct r0; [discriminate|]. intros [= <-]. left. exact Ee.
        + destruct (vrf c r0) as [v|] eqn:Ev; [|discriminate]. destruct (oidc_authz_post_parse v "" c) as [[m1|] c1] eqn:Ep; [|discriminate].
          destruct m1; [discriminate|]. intros [= <-]. right. exists v. split; [exists c, r0; split; [exact (proj2 C)|exact Ev]|].
          destruct (authz_post_verified _ _ _ _ _ Ep) as [X1 X2]. auto. }
    intros m [Hm (cx & cy & Hcx & Hpx)]. destruct (is_error_message m) eqn:Eem; [apply w_ret; now left|].
    assert (HV : from_vrf vrf m) by (destruct Hm as [Hm|Hm]; [unfold is_error_message in Eem; congruence|exact Hm]).
    destruct (dget "state" m) as [[| | |s| |]|] eqn:Es; try apply w_raise.
    assert (AD : addressed vrf resp s) by (exists cx, r0, m, cy; auto).
    intros c C. unfold writes_at. assert (PURE : forall e, writes_at (front_op vrf resp) (raise (A := msg) e) (fine (from_vrf vrf)) c) by (intros e; now apply w_raise).
    destruct (get_iss (sdb c) s) as [i|e] eqn:Ei; [|destruct e; apply (PURE _)].
    destruct (val_eqb i (VStr iss)); [|apply (PURE ValueError)].
    assert (Hk : K s) by (eapply closed_iss; [exact HN|exact (proj1 C)|exact Ei]).
    assert (HP : forall o, authz_op vrf s o -> front_op vrf resp o) by (intros o Ho; exists s; auto).
    revert C. revert c PURE Ei. intros c _ _. revert c.
    change (writes (front_op vrf resp) (r <- authz_update_service_context now m s;; on_db (store_item (IMsg cAuthzResponse r) "auth_response" s);;; ret r) (fine (from_vrf vrf))).
    eapply w_bind; [now apply w_authz_update with (vrf := vrf)|]. intros r Hr.
    eapply w_bind; [apply w_store; [assumption|discriminate|apply HP; red; eauto]|]. intros _ _. apply w_ret. now right.
  Qed.

  (** the authorization request *)
  Definition init_op (ns : string -> Prop) (st : string) (o : op) : Prop :=
    match o with Create rnd iss key => created_key rnd key = st /\ iss = issuer c00 | Store _ _ t k => k = st /\ In t ["auth_request"; "pkce"] | Bind x n k => k = st /\ x = "nonce" /\ ns n | Remove _ => False end.
  (** the arguments have the session key and a nonce, one of [ns] if it is a text *)
  Definition for_login (ns : string -> Prop) (st : string) (a : dict val) : Prop :=
    NoDup (dkeys a) /\ dget "state" a = Some (VStr st) /\ exists n, dget "nonce" a = Some n /\ forall t, n = VStr t -> ns t.
  Definition has_state (ns : string -> Prop) (st : string) (ap : dict val * dict val) : Prop := for_login ns st (fst ap).
  Lemma for_login_set ns st a x v : x <> "state" -> x <> "nonce" -> for_login ns st a -> for_login ns st (dset x v a).
  Proof. intros H1 H2 (N & S & n & Hn & T). split; [now apply NoDup_dset|]. rewrite !dget_dset_neq by congruence. eauto. Qed.
  Lemma w_authz_pre ns W cl args beh st : K st -> plain_conf (conf_of cl "authorization") ->
    for_login ns st args ->
    writes (init_op ns st) (do_pre_construct (authz_svc W cl) args (kwb beh)) (has_state ns st).
  Proof.
    intros Hk [PC _] L. destruct L as (N & Hst & n & Hn & T). destruct (authz_fields W cl) as (AF1 & _ & _ & _ & AF5 & _). unfold do_pre_construct.
    rewrite AF1, method_args_plain by (rewrite AF5; exact PC).
    assert (KS : dget "state" (kwb beh) = None) by (destruct beh; reflexivity). cbn [app run_pre].
    eapply w_bind with (Q := has_state ns st).
    { unfold lift_pre. eapply w_bind with (Q := for_login ns st).
      - unfold set_state. rewrite KS, Hst. intros c C.
        pose proof (w_create (init_op ns st) (e_state2 W) (issuer c) st) as WC.
        assert (CK : created_key (e_state2 W) st = st). { unfold created_key. destruct HK as (K1 & _). now rewrite (eqb_neq _ _ (K1 _ Hk)). }
        rewrite CK in WC. specialize (WC Hk (conj CK (f_equal issuer (proj2 C))) c C). intros r c' E. unfold on_db, writes_at in WC.
        destruct (create_state (e_state2 W) (issuer c) st (sdb c)) as [x d]. specialize (WC _ _ eq_refl). injection E as <- <-.
        destruct WC as (A1 & A2 & A3). split; [exact A1|]. split; [exact A2|]. intros a Ha. destruct x as [k|]; [|discriminate].
        rewrite (A3 k eq_refl) in Ha. injection Ha as <-. split; [now apply NoDup_dset|]. split; [apply dget_dset_eq|].
        exists n. rewrite dget_dset_neq by discriminate. auto.
      - intros a Ha. now apply w_ret. }
    intros [b1 p1] L1. unfold has_state in L1. cbn [fst snd] in *.
    eapply w_bind with (Q := has_state ns st).
    { unfold lift_pre. eapply w_bind with (Q := for_login ns st); [|intros a Ha; now apply w_ret].
      apply w_pure.
      - intros c. unfold pre_construct_pick_redirect_uri. now destruct (pick_redirect_uri c (Some b1) None).
      - intros c a. unfold pre_construct_pick_redirect_uri. destruct (pick_redirect_uri c (Some b1) None); [|discriminate]. intros [= <-].
        now apply for_login_set. }
    intros [b2 p2] L2. unfold has_state in L2. cbn [fst snd] in *.
    eapply w_bind with (Q := has_state ns st).
    { unfold oidc_pre_construct. eapply w_bind with (Q := for_login ns st); [|intros a Ha; now apply w_ret].
      apply w_pure.
      - intros c. unfold oidc_pre_construct_args.
        destruct (match dget "response_type" b2 with
    | Some rt => (Some [rt], b2)
    | None =>
        match dget "response_types" (behaviour c) with
        | Some (VList (v :: r)) => (Some (v :: r), dset "response_type" v b2)
        | _ => (None, dset "response_type" (VStr "code") b2)
        end
    end) as [rts a1].
        match goal with |- context [match ?x with Ok _ => _ | Err _ => _ end] => destruct x end; [|reflexivity].
        destruct rts; [destruct (_ || _); reflexivity|]. now destruct (dget "response_types" (behaviour c)) as [[| | | |[|] |]|].
      - intros c a Ha. destruct (oidc_pre_construct_args (e_nonce2 W) b2 c) as [x c1] eqn:E. cbn in Ha. subst x.
        destruct (oidc_pre_args_spec _ _ _ _ _ E) as (_ & U1 & U2 & U3 & _). destruct L2 as (N2 & S2 & n2 & Hn2 & T2).
        split; [auto|]. split; [rewrite U2; [assumption|]; cbn; intuition discriminate|]. exists n2. split; [now apply U3|exact T2]. }
    intros [b3 p3] L3. unfold has_state in L3. cbn [fst snd] in *.
    destruct (cl_pkce cl); [|now apply w_ret]. cbn [run_pre].
    eapply w_bind with (Q := has_state ns st); [|intros [b4 p4] H4; now apply w_ret].
    intros c C. unfold add_code_challenge, writes_at.
    match goal with |- context [match ?x with Ok _ => _ | Err _ => _ end] => destruct x as [[v m]|e] end; [|apply (w_raise (init_op ns st) e _ c C)].
    destruct L3 as (N3 & S3 & n3 & Hn3 & T3). rewrite S3. revert c C.
    match goal with |- forall c, good c -> forall r c', ?f c = _ -> _ => change (writes (init_op ns st) f (has_state ns st)) end.
    eapply w_bind; [apply w_store; [assumption|discriminate|split; [reflexivity|cbn; auto]]|]. intros _ _. apply w_ret.
    unfold has_state. cbn [fst]. do 2 (apply for_login_set; [discriminate..|]). split; [exact N3|]. eauto.
  Qed.
  Lemma w_authz_post (ns : string -> Prop) W req kw st : K st -> dget "state" req = Some (VStr st) -> (forall n, dget "nonce" req = Some (VStr n) -> ns n) ->
    writes (init_op ns st) (oidc_authz_post (e_reqobj W) req kw) any.
  Proof.
    intros Hk Hst Hns. unfold oidc_authz_post. eapply w_bind with (Q := any).
    - unfold oidc_post_construct. destruct (dget "scope" req) as [sc|]; [|apply w_raise].
      destruct (py_in "openid" sc) as [o|]; [|apply w_raise]. destruct (py_in "offline_access" sc) as [off|]; [|apply w_raise].
      eapply w_bind with (Q := any).
      + destruct o; [|now apply w_ret]. destruct (dget "response_type" req) as [[| | | |[|x rt]|]|]; try apply w_raise.
        destruct x; try apply w_raise. destruct (_ || _); [|now apply w_ret]. rewrite Hst.
        destruct (dget "nonce" req) as [[| | |n| |]|] eqn:En; try apply w_raise.
        apply w_bindx; [assumption|apply in_nonce|]. split; [reflexivity|]. split; [reflexivity|]. now apply Hns.
      + intros _ _.
        assert (S1 : dget "state" (if off && negb (dhas "prompt" req) then dset "prompt" (strs ["consent"]) req else req) = Some (VStr st)).
        { destruct (off && negb (dhas "prompt" req)); [rewrite dget_dset_neq by discriminate|]; exact Hst. }
        rewrite S1. eapply w_bind; [apply w_store; [assumption|discriminate|split; [reflexivity|cbn; auto]]|]. intros _ _. now apply w_ret.
    - intros r _. apply w_any_pure. intros c. unfold oidc_request_param. destruct (dget "request_param" kw) as [[| | |p| |]|]; try reflexivity;
        try (destruct (truthy _); reflexivity). destruct (p =?s ""); [reflexivity|]. now destruct (e_reqobj W c r p kw).
  Qed.
  Lemma w_authz_construct ns W cl args beh st : K st -> plain_conf (conf_of cl "authorization") ->
    for_login ns st args ->
    writes (init_op ns st) (construct (authz_svc W cl) args (kwb beh)) any.
  Proof.
    intros Hk PC L. unfold construct. eapply w_bind; [now apply w_authz_pre|]. intros [a1 post] L1. unfold has_state in L1. cbn [fst] in *.
    destruct L1 as (N1 & S1 & n1 & Hn1 & T1).
    assert (KS : dget "state" (kwb beh) = None) by (destruct beh; reflexivity). rewrite KS.
    destruct (authz_fields W cl) as (_ & AF2 & AF3 & AF4 & _).
    generalize dependent (authz_svc W cl). intros s AF2 AF3 AF4.
    eapply w_bind with (Q := for_login ns st).
    { apply w_pure; [reflexivity|]. intros c out H. cbn [fst] in H. unfold gather_request_args in H.
      destruct (gather_loop s c (c_par (s_cls s)) a1) as [o1|] eqn:E5; [|discriminate]. cbn [rbind] in H.
      destruct (gather_loop_get _ _ _ _ _ E5) as [NO GO]. specialize (NO N1). rewrite AF3 in H. unfold authz_gather in H.
      assert (L2 : for_login ns st o1) by (split; [exact NO|]; split; [now rewrite GO, S1|]; exists n1; split; [now rewrite GO, Hn1|exact T1]).
      destruct (dhas "redirect_uri" o1); [injection H as <-; auto|]. destruct (redirect_uris c); [discriminate|]. injection H as <-.
      now apply for_login_set. }
    intros out (NO & SO & n & Hn & T). eapply w_bind with (Q := fun r => dget "state" r = Some (VStr st) /\ forall n, dget "nonce" r = Some (VStr n) -> ns n).
    { apply w_lift. intros req Hr. rewrite AF4 in Hr. rewrite !(msg_new_get _ _ _ NO Hr), SO, Hn. destruct HK as (K1 & _).
      pose proof (K1 _ Hk). split; [destruct st; [easy|reflexivity]|]. intros t. destruct (skipped n); [discriminate|].
      rewrite shown_plain by reflexivity. intros [= E]. now apply T. }
    intros req [SR NR]. unfold do_post_construct. rewrite AF2. cbn [run_post].
    eapply w_bind; [now apply w_authz_post|]. intros r _. now apply w_ret.
  Qed.
  Lemma authz_args_nonce W c reqs args : authz_request_args W c reqs = Ok args ->
    dget "nonce" args = dget "nonce" (dupdate (dupdate [("nonce", VStr (e_nonce W))] (config_request_args c)) reqs).
  Proof.
    unfold authz_request_args. intros H. destruct (response_type_of c reqs) as [rt|]; [|discriminate]. cbn [rbind] in H.
    destruct (pick_redirect_uri c (Some reqs) (Some rt)) as [ru|]; [|discriminate]. cbn [rbind] in H.
    destruct (dict_get "scope" (behaviour c)) as [sc|]; [|discriminate]. injection H as <-. now rewrite !dget_dupdate.
  Qed.
  Lemma w_init W cl reqs beh : K (e_state W) -> plain_conf (conf_of cl "authorization") ->
    writes (init_op (uses_nonce c00 W reqs) (e_state W)) (init_authorization W cl reqs beh) any.
  Proof.
    intros Hk PC. unfold init_authorization.
    eapply w_bind with (Q := fun a => NoDup (dkeys a) /\ exists n, dget "nonce" a = Some n /\ forall t, n = VStr t -> uses_nonce c00 W reqs t).
    { intros c [_ C]. apply wa_pure; [reflexivity|]. intros a Ha. cbn in Ha. destruct (authz_args_spec _ _ _ _ Ha) as (N & _ & _ & _ & _ & P).
      split; [exact N|]. destruct (P "nonce") as [n Hn]; [cbn; auto|]. exists n. split; [exact Hn|]. intros t ->. right.
      rewrite (authz_args_nonce _ _ _ _ Ha) in Hn. rewrite C in Hn. exact Hn. }
    intros args (N & n & Hn & Tn). eapply w_bind with (Q := fun i => i = issuer c00).
    { intros c [_ C] r c' E. injection E as <- <-. split; [now rewrite set_db_same|]. split; [exists []; split; [constructor|reflexivity]|].
      intros a [= <-]. exact (f_equal issuer C). }
    intros iss ->. eapply w_bind; [apply w_create; [exact Hk|split; reflexivity]|]. intros st Hst. cbn in Hst. subst st.
    eapply w_bind; [apply w_bindx; [exact Hk|apply in_nonce|split; [reflexivity|split; [reflexivity|now left]]]|]. intros _ _.
    eapply w_bind with (Q := any); [|intros i _; now apply w_ret]. fold (kwb beh).
    apply w_grp; [now destruct (authz_fields W cl) as (_ & _ & _ & _ & _ & _ & ? & _)|].
    apply w_authz_construct; [exact Hk|exact PC|]. split; [now apply NoDup_dset|]. split; [apply dget_dset_eq|].
    exists n. rewrite dget_dset_neq by discriminate. auto.
  Qed.

  (** finalize: everything that follows a response *)
  (** the ID Token and the user info of the login, and what is bound to the session then *)
  Definition final_bind (W : env) (cl : client) (iss : string) (resp : dict val) (collect : bool) (o : op) : Prop :=
    exists c1 m c2 t c3 s, c1 = set_db (sdb c1) c00 /\ (c2 = set_db (sdb c2) c00 /\ c3 = set_db (sdb c3) c00) /\
      finalize_auth (e_vrf W "authorization") (e_now W) iss resp c1 = (Ok m, c2) /\ is_error_message m = false /\
      dget "state" m = Some (VStr s) /\ K s /\ get_access_and_id_token W cl m s collect c2 = (Ok t, c3) /\
      exists v, ((exists claims, t_id t = VDict claims /\
                    ((dget "sid" claims = Some (VStr v) /\ o = Bind "session id" v s) \/ (dget "sub" claims = Some (VStr v) /\ o = Bind "subject id" v s))) \/
                 ((forall kv r, t_id t <> VDict (kv :: r)) /\
                  (exists a r c4, t_access t = VStr a /\ get_user_info W cl s a c3 = (Ok r, c4) /\ dget "sub" (msg_of r) = Some (VStr v)) /\
                  o = Bind "subject id" v s)).
  Definition answered (W : env) (iss : string) (resp : dict val) (s : string) : Prop :=
    exists c1 m c2, c1 = set_db (sdb c1) c00 /\
      finalize_auth (e_vrf W "authorization") (e_now W) iss resp c1 = (Ok m, c2) /\ is_error_message m = false /\ dget "state" m = Some (VStr s).
  Definition final_op (W : env) (cl : client) (iss : string) (resp : dict val) (collect : bool) (o : op) : Prop :=
    (exists s, K s /\ ((addressed (e_vrf W "authorization") resp s /\ authz_op (e_vrf W "authorization") s o) \/ (answered W iss resp s /\ (token_op (e_vrf W "accesstoken") s o \/ userinfo_op s o)))) \/
    final_bind W cl iss resp collect o.
  Lemma w_bind_value (P : op -> Prop) x v st : K st -> In x kinds -> (forall s, v = VStr s -> P (Bind x s st)) -> writes P (bind_value x v st) any.
  Proof. intros. unfold bind_value. destruct v; try apply w_raise. apply w_bindx; auto. Qed.
  Lemma w_endpoint (P : op -> Prop) W cl st : K st -> (forall o, token_op (e_vrf W "accesstoken") st o -> P o) -> writes P (tokens_from_endpoint W cl st) any.
  Proof.
    intros Hk HP. unfold tokens_from_endpoint. eapply w_bind.
    { eapply w_weaken; [now apply w_get_tokens|]. exact HP. }
    intros r _. eapply w_bind with (Q := any); [apply w_lift; intros; exact I|]. intros a _. now apply w_ret.
  Qed.
  Lemma w_finalize W cl iss resp collect : writes (final_op W cl iss resp collect) (finalize W cl iss resp collect) any.
  Proof.
    intros c C. unfold finalize. eapply wa_bind; [exact C| |].
    { eapply w_weaken; [apply w_finalize_auth| |exact C]. intros o (s & Hs & Had & Ho). left. exists s. auto. }
    intros m c1 E _ C1. destruct (is_error_message m) eqn:Ee.
    { eapply w_bind with (Q := any); [apply w_lift; intros; exact I| |exact C1]. intros s _.
      eapply w_bind with (Q := any); [apply w_lift; intros; exact I|]. intros e _. now apply w_ret. }
    destruct (dget "state" m) as [[| | |st| |]|] eqn:Est; try (now apply w_raise).
    assert (Hk : K st).
    { pose proof (finalize_auth_spec _ _ _ _ _ _ _ E) as F. cbn in F. destruct F as [[F _]|[_ (s & F1 & F2 & _)]]; [congruence|].
      rewrite Est in F1. injection F1 as <-. eapply closed_iss; [exact HN|exact (proj1 C)|exact F2]. }
    assert (AN : answered W iss resp st) by (exists c, m, c1; split; [exact (proj2 C)|]; auto).
    eapply wa_bind with (Q := any); [exact C1| |].
    { revert c1 C1 E. intros c1 C1 _. revert c1 C1.
      match goal with |- forall c1, good c1 -> writes_at ?P ?f _ c1 => change (writes P f any) end.
      unfold get_access_and_id_token. eapply w_bind with (Q := any); [now apply w_any_pure|]. intros rq _.
      eapply w_bind with (Q := any); [apply w_lift; intros; exact I|]. intros rt _.
      eapply w_bind with (Q := any); [apply w_lift; intros; exact I|]. intros idt _.
      assert (TE : writes (final_op W cl iss resp collect) (tokens_from_endpoint W cl st) any).
      { apply w_endpoint; [exact Hk|]. intros o Ho. left. exists st. auto. }
      destruct (one_of rt _).
      - eapply w_bind with (Q := any); [apply w_lift; intros; exact I|]. intros a _. destruct collect; [exact TE|now apply w_ret].
      - destruct (one_of rt _); [exact TE|now apply w_ret]. }
    intros t c2 Et _ C2.
    assert (FB : forall o v, ((exists claims, t_id t = VDict claims /\
                    ((dget "sid" claims = Some (VStr v) /\ o = Bind "session id" v st) \/ (dget "sub" claims = Some (VStr v) /\ o = Bind "subject id" v st))) \/
                 ((forall kv r, t_id t <> VDict (kv :: r)) /\
                  (exists a r c4, t_access t = VStr a /\ get_user_info W cl st a c2 = (Ok r, c4) /\ dget "sub" (msg_of r) = Some (VStr v)) /\
                  o = Bind "subject id" v st)) -> final_op W cl iss resp collect o).
    { intros o v H. right. exists c, m, c1, t, c2, st. split; [exact (proj2 C)|]. split; [split; [exact (proj2 C1)|exact (proj2 C2)]|]. split; [exact E|]. split; [exact Ee|].
      split; [exact Est|]. split; [exact Hk|]. split; [exact Et|]. exists v. exact H. }
    eapply wa_bind with (Q := any); [exact C2| |].
    { revert c2 C2 Et FB. intros c2 C2 _ _. revert c2 C2.
      match goal with |- forall c1, good c1 -> writes_at ?P ?f _ c1 => change (writes P f any) end.
      destruct (_ && _).
      - destruct (t_access t); try apply w_raise. eapply w_bind with (Q := any).
        + eapply w_weaken; [now apply w_user_info|]. intros o Ho. left. exists st. auto.
        + intros r _. now apply w_ret.
      - destruct (t_id t) as [| | | | |[|? ?]]; now apply w_ret. }
    intros info c3 Ei _ C3.
    assert (IN : forall v, (forall kv r, t_id t <> VDict (kv :: r)) -> dget "sub" info = Some (VStr v) ->
       final_op W cl iss resp collect (Bind "subject id" v st)).
    { intros v NI Hv. apply (FB _ v). right. split; [exact NI|]. split; [|reflexivity]. destruct (_ && _).
      - destruct (t_access t) as [| | |a| |]; try discriminate. unfold bind in Ei. destruct (get_user_info W cl st a c2) as [[r|] c4] eqn:Eu; [|discriminate].
        injection Ei as <- <-. exists a, r, c4. auto.
      - exfalso. destruct (t_id t) as [| | | | |[|kv r]]; try (injection Ei as <- _; discriminate). exact (NI _ _ eq_refl). }
    refine (w_bind _ _ _ any _ _ _ _ C3); [|intros _ _; now apply w_ret].
    clear Ei C3 c3. unfold bind_subject.
    assert (B1 : (forall kv r, t_id t <> VDict (kv :: r)) -> writes (final_op W cl iss resp collect) (s <- lift (dict_get "sub" info) ;; bind_value "subject id" s st) any).
    { intros NI. eapply w_bind with (Q := fun v => dget "sub" info = Some v).
      - apply w_lift. intros a. unfold dict_get. destruct (dget "sub" info); [now intros [= <-]|discriminate].
      - intros v Hv. apply w_bind_value; [assumption|apply in_sub|]. intros s ->. now apply IN. }
    destruct (t_id t) as [| | | | |[|kv r]] eqn:Ti; try (apply B1; discriminate).
    eapply w_bind with (Q := any); [now apply w_any_pure|]. intros c0 _.
    eapply w_bind with (Q := any).
    { destruct c0; [|now apply w_ret]. destruct (dget "sid" (kv :: r)) eqn:Ed; [|now apply w_ret].
      apply w_bind_value; [assumption|apply in_sid|]. intros s ->. apply (FB _ s). left. exists (kv :: r). auto. }
    intros _ _. eapply w_bind with (Q := fun v => dget "sub" (kv :: r) = Some v).
    { apply w_lift. intros a. unfold dict_get. destruct (dget "sub" (kv :: r)); [now intros [= <-]|discriminate]. }
    intros v Hv. apply w_bind_value; [assumption|apply in_sub|]. intros s ->. apply (FB _ s). left. exists (kv :: r). auto.
  Qed.
End Writes.

(** ** histories of calls *)
(** what a call may do *)
Definition call_op (cl : client) (c0 : ctx) (o : call) : op -> Prop :=
  match o with
  | CInit W reqs _ => init_op c0 (uses_nonce c0 W reqs) (e_state W)
  | CFinalize W iss resp collect => final_op rnd32 c0 W cl iss resp collect
  | CFinalizeAuth W _ resp => front_op rnd32 c0 (e_vrf W "authorization") resp
  | CTokens W st => token_op c0 (e_vrf W "accesstoken") st
  | CRefresh W st _ => refresh_op c0 (e_vrf W "refresh_token") st
  | CUserInfo _ st _ => userinfo_op st
  | CLogout _ st _ => logout_op st
  | CClear st => fun x => x = Remove st
  end.
Lemma call_writes_from c0 cl o c : plain_client cl -> call_ok o -> closed rnd32 (sdb c) -> c = set_db (sdb c) c0 ->
  run_call cl o c = set_db (sdb (run_call cl o c)) c /\
  exists ops, Forall (fun x => op_ok rnd32 x /\ call_op cl c0 o x) ops /\ sdb (run_call cl o c) = snd (crun (sdb c) ops).
Proof.
  intros [PC1 PC2] Ho C EC.
  assert (G : forall A (m : M A) P Q, writes rnd32 c0 P m Q -> snd (m c) = set_db (sdb (snd (m c))) c /\
     exists ops, Forall (fun x => op_ok rnd32 x /\ P x) ops /\ sdb (snd (m c)) = snd (crun (sdb c) ops)).
  { intros A m P Q H. destruct (m c) as [r c'] eqn:E. destruct (H c (conj C EC) _ _ E) as (A1 & A2 & _). auto. }
  pose proof rnd32_family as F. pose proof rnd32_no_dict as N.
  destruct o; cbn [run_call call_op call_ok] in *; eapply G.
  - now apply w_init.
  - now apply w_finalize.
  - now apply w_finalize_auth.
  - now apply w_get_tokens.
  - now apply w_refresh.
  - now apply w_user_info.
  - now apply w_logout.
  - eapply w_remove; [exact Ho|reflexivity].
Qed.
Lemma call_writes cl o c : plain_client cl -> call_ok o -> closed rnd32 (sdb c) ->
  run_call cl o c = set_db (sdb (run_call cl o c)) c /\
  exists ops, Forall (fun x => op_ok rnd32 x /\ call_op cl c o x) ops /\ sdb (run_call cl o c) = snd (crun (sdb c) ops).
Proof. intros. apply call_writes_from; auto. now rewrite set_db_same. Qed.
Lemma calls_write_from c0 cl os : plain_client cl -> Forall call_ok os -> forall c, closed rnd32 (sdb c) -> c = set_db (sdb c) c0 ->
  run_calls cl os c = set_db (sdb (run_calls cl os c)) c /\
  exists ops, Forall (fun x => op_ok rnd32 x /\ exists o, In o os /\ call_op cl c0 o x) ops /\ sdb (run_calls cl os c) = snd (crun (sdb c) ops).
Proof.
  intros PC Ho. induction Ho as [|o os H1 H2 IH]; intros c C EC.
  - cbn. split; [now rewrite set_db_same|]. exists []. split; [constructor|reflexivity].
  - change (run_calls cl (o :: os) c) with (run_calls cl os (run_call cl o c)).
    destruct (call_writes_from c0 cl o c PC H1 C EC) as (A1 & ops1 & A2 & A3).
    assert (C1 : closed rnd32 (sdb (run_call cl o c))).
    { rewrite A3. apply closed_run; [apply rnd32_family|assumption|]. eapply Forall_impl; [|exact A2]. cbn; tauto. }
    assert (EC1 : run_call cl o c = set_db (sdb (run_call cl o c)) c0) by (rewrite A1, EC; reflexivity).
    destruct (IH _ C1 EC1) as (B1 & ops2 & B2 & B3). split; [rewrite B1, A1; reflexivity|].
    exists (ops1 ++ ops2). split; [|now rewrite crun_app, <- A3].
    apply Forall_app. split.
    + eapply Forall_impl; [|exact A2]. cbn. intros x [X1 X2]. split; [assumption|]. exists o. auto.
    + eapply Forall_impl; [|exact B2]. cbn. intros x [X1 (o' & X2 & X3)]. split; [assumption|]. exists o'. auto.
Qed.
Lemma calls_write cl os : plain_client cl -> Forall call_ok os -> forall c, closed rnd32 (sdb c) ->
  run_calls cl os c = set_db (sdb (run_calls cl os c)) c /\
  exists ops, Forall (fun x => op_ok rnd32 x /\ exists o, In o os /\ call_op cl c o x) ops /\ sdb (run_calls cl os c) = snd (crun (sdb c) ops).
Proof. intros. apply calls_write_from; auto. now rewrite set_db_same. Qed.
(** items that only a request writes survive *)
Lemma calls_keep cl os k t cc : plain_client cl -> Forall call_ok os -> rnd32 k -> ~ In t response_items ->
  (forall o, In o os -> leaves k o) -> forall c, closed rnd32 (sdb c) -> (exists s, get_state (sdb c) k = Ok s) ->
  get_item (sdb (run_calls cl os c)) cc t k = get_item (sdb c) cc t k.
Proof.
  intros PC Ho Hk Ht Hl c C Hs. destruct (calls_write cl os PC Ho c C) as (_ & ops & F & ->).
  refine (proj1 (item_stable rnd32 ops cc k t rnd32_family _ Hk _ (sdb c) Hs)).
  - eapply Forall_impl; [|exact F]. cbn. tauto.
  - intros x Hx. rewrite Forall_forall in F. destruct (F _ Hx) as (_ & o & Hin & Hc). specialize (Hl _ Hin).
    unfold response_items in Ht. cbn [In] in Ht.
    assert (TK : forall v s, token_op c v s x -> ~ overwrites x k t).
    { intros v s [(? & ? & ->)|(? & ? & ->)]; cbn; [|tauto]. intros [_ <-]. tauto. }
    assert (RK : forall v s, refresh_op c v s x -> ~ overwrites x k t) by (intros v s H; eapply TK; left; exact H).
    assert (AK : forall v s, authz_op c v s x -> ~ overwrites x k t) by (intros v s (? & ? & ->); cbn; intros [_ <-]; tauto).
    assert (UK : forall s, userinfo_op s x -> ~ overwrites x k t) by (intros s (? & ? & ->); cbn; intros [_ <-]; tauto).
    destruct o; cbn [call_op leaves] in *; eauto.
    + destruct x as [rnd i key|? ? ? ?|? ? ?|?]; cbn in *; try tauto; [intuition congruence|intuition congruence].
    + destruct Hc as [(s & _ & [[_ A]|[_ [A|A]]])|A]; eauto.
      destruct A as (? & ? & ? & ? & ? & ? & ? & ? & ? & ? & ? & ? & ? & ? & [(? & ? & [(? & ->)|(? & ->)])|(? & ? & ->)]); cbn; tauto.
    + destruct Hc as (s & _ & _ & A); eauto.
    + destruct Hc as (v & ->). cbn. tauto.
    + subst x. cbn. assumption.
Qed.
(** a client's database after any history is the result of a history of store operations *)
Lemma calls_from_empty cl os c : plain_client cl -> Forall call_ok os -> sdb c = [] ->
  exists ops, Forall (op_ok rnd32) ops /\ sdb (run_calls cl os c) = snd (crun [] ops).
Proof.
  intros PC Ho Hc. destruct (calls_write cl os PC Ho c) as (_ & ops & F & E).
  - rewrite Hc. apply closed_nil.
  - exists ops. split; [|now rewrite E, Hc]. eapply Forall_impl; [|exact F]. cbn; tauto.
Qed.
