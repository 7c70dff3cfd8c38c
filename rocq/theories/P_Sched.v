(** Sessions do not disturb one another. *)
From Verif Require Import Base BaseP Json JsonP Msg M_State S_State P_State M_Ctx M_Codec M_Authz M_ClientAuth
  M_Service M_Token M_Handler S_Service S_Token S_Handler S_Flow S_Trace S_Sched P_Ctx P_Authz P_Codec P_ClientAuth P_Service P_Wire P_Token
  P_Handler P_Flow P_Trace P_Sim P_SimK.

Section Sim.
  Variable k : string.
  Hypothesis Hk : rnd32 k.
  Variable c00 : ctx.

  (** two databases that are the same for session [k] *)
  Definition Rdb (d1 d2 : db) : Prop :=
    dget k d1 = dget k d2 /\ dget (ref_key k) d1 = dget (ref_key k) d2 /\
    (forall n, dget (idx "nonce" n) d1 = Some k <-> dget (idx "nonce" n) d2 = Some k) /\
    closed rnd32 d1 /\ closed rnd32 d2.
  Local Notation Rc := (P_Sim.Rc Rdb c00).
  Local Notation sim := (P_Sim.sim Rdb c00).

  (** ** what can be read about session k *)
  Lemma R_state d1 d2 : Rdb d1 d2 -> get_state d1 k = get_state d2 k.
  Proof. intros (H & _). unfold get_state. now rewrite H. Qed.
  Lemma R_item d1 d2 cc t : Rdb d1 d2 -> get_item d1 cc t k = get_item d2 cc t k.
  Proof. intros H. unfold get_item. now rewrite (R_state _ _ H). Qed.
  Lemma R_iss d1 d2 : Rdb d1 d2 -> get_iss d1 k = get_iss d2 k.
  Proof. intros H. unfold get_iss. now rewrite (R_state _ _ H). Qed.
  Lemma R_extend d1 d2 a cc t ps o : Rdb d1 d2 -> extend_request_args d1 a cc t k ps o = extend_request_args d2 a cc t k ps o.
  Proof. intros H. unfold extend_request_args. now rewrite (R_item _ _ _ _ H). Qed.
  Lemma R_mult d1 d2 a ps ts o : Rdb d1 d2 -> multiple_extend_request_args d1 a k ps ts o = multiple_extend_request_args d2 a k ps ts o.
  Proof. intros H. unfold multiple_extend_request_args. now rewrite (R_state _ _ H). Qed.
  Lemma R_mult_empty d1 d2 a ps ts o : Rdb d1 d2 -> multiple_extend_request_args d1 a "" ps ts o = multiple_extend_request_args d2 a "" ps ts o.
  Proof. intros (_ & _ & _ & C1 & C2). unfold multiple_extend_request_args. now rewrite !(closed_empty rnd32 rnd32_family) by assumption. Qed.

  (** ** what is written to session k *)
  Lemma K_ref' : ref_key k <> k.
  Proof. apply (K_ref rnd32 rnd32_family); exact Hk. Qed.
  Lemma K_idx' x v : In x kinds -> idx x v <> k.
  Proof. intros H. apply (K_idx rnd32 rnd32_family); [exact Hk|exact H]. Qed.
  Lemma R_text t d1 d2 : Rdb d1 d2 -> Rdb (dset k t d1) (dset k t d2).
  Proof.
    intros (A & B & C & D & E). split; [now rewrite !dget_dset_eq|]. split; [now rewrite !dget_dset_neq by (apply not_eq_sym, K_ref')|].
    split; [|split; apply closed_set_K; auto using rnd32_family].
    intros n. rewrite !dget_dset_neq by (apply not_eq_sym, K_idx', in_nonce). apply C.
  Qed.
  Lemma sim_store w i t : sim w (on_db (store_item i t k)) any.
  Proof.
    apply sim_on; [|intros; exact I]. intros d1 d2 H. unfold store_item. rewrite (R_state _ _ H).
    destruct (match get_state d2 k with Ok s => Ok s | Err (KeyError _) => Ok [] | Err e => Err e end); [|auto].
    destruct (msg_set _ _ _ _); [|auto]. cbn [fst snd]. split; [reflexivity|now apply R_text].
  Qed.
  Lemma sim_create w rnd iss key : created_key rnd key = k -> sim w (on_db (create_state rnd iss key)) (fun q => q = k).
  Proof.
    intros Hc. apply sim_on.
    - intros d1 d2 H. unfold created_key in Hc. unfold create_state. destruct (key =?s "").
      + destruct (msg_new _ _); [|auto]. cbn [fst snd]. subst rnd. split; [reflexivity|now apply R_text].
      + destruct (_ && _); [auto|]. destruct (msg_new _ _); [|auto]. cbn [fst snd]. subst key. split; [reflexivity|now apply R_text].
    - intros d a. unfold created_key in Hc. unfold create_state. destruct (key =?s "").
      + destruct (msg_new _ _); [|discriminate]. cbn. intros [= <-]. exact Hc.
      + destruct (_ && _); [discriminate|]. destruct (msg_new _ _); [|discriminate]. cbn. intros [= <-]. exact Hc.
  Qed.
  Lemma sim_bindx w x v : In x kinds -> sim w (on_db (store_x2state v k x)) any.
  Proof.
    intros Hx. apply sim_on; [|intros; exact I]. intros d1 d2 H.
    assert (CL : forall d, closed rnd32 d -> closed rnd32 (snd (store_x2state v k x d))).
    { intros d Hd. pose proof (closed_step rnd32 rnd32_family d (Bind x v k) Hd) as CS. cbn in CS.
      destruct (store_x2state v k x d) as [[|] ?]; apply CS; split; auto. }
    assert (CC := H). destruct H as (A & B & C & D & E). pose proof (CL _ D) as D'. pose proof (CL _ E) as E'. clear CL.
    unfold store_x2state in *. rewrite (index_key_ok _ _ Hx) in *.
    assert (RK : forall d, dget (ref_key k) (dset (idx x v) k d) = dget (ref_key k) d) by (intros; apply dget_dset_neq; now apply idx_ref).
    rewrite !RK in *. rewrite B in *.
    assert (R1 : dget k (dset (idx x v) k d1) = dget k (dset (idx x v) k d2)) by (rewrite !dget_dset_neq by (now apply K_idx'); exact A).
    assert (R3 : forall n, dget (idx "nonce" n) (dset (idx x v) k d1) = Some k <-> dget (idx "nonce" n) (dset (idx x v) k d2) = Some k).
    { intros n. destruct (string_dec (idx x v) (idx "nonce" n)) as [->|N]; [now rewrite !dget_dset_eq|]. rewrite !dget_dset_neq by exact N. apply C. }
    assert (W : forall t, closed rnd32 (dset (ref_key k) t (dset (idx x v) k d1)) -> closed rnd32 (dset (ref_key k) t (dset (idx x v) k d2)) ->
       Rdb (dset (ref_key k) t (dset (idx x v) k d1)) (dset (ref_key k) t (dset (idx x v) k d2))).
    { intros t T1 T2. split; [now rewrite !(dget_dset_neq (ref_key k) k) by apply K_ref'|]. split; [now rewrite !dget_dset_eq|].
      split; [|auto]. intros n. rewrite !(dget_dset_neq (ref_key k)) by (apply not_eq_sym, idx_ref, in_nonce). apply R3. }
    destruct (dget (ref_key k) d2) as [txt|] eqn:Et; [|split; [reflexivity|now apply W]].
    destruct (json_loads txt) as [[| | | | |refs]|]; cbn [fst snd] in *; (split; [reflexivity|]); try (now apply W);
      (split; [exact R1|]; split; [now rewrite !RK, B, Et|]; auto).
  Qed.

  (** ** the calls *)
  Lemma k_ne : k <> "".
  Proof. destruct rnd32_family as (K1 & _). now apply K1. Qed.
  Lemma R_nonce d1 d2 n : Rdb d1 d2 -> get_state_by_nonce d1 n = Ok k <-> get_state_by_nonce d2 n = Ok k.
  Proof.
    intros (_ & _ & H & _). specialize (H n). unfold get_state_by_nonce, get_state_by_x. rewrite (index_key_ok _ _ in_nonce).
    pose proof k_ne as NE.
    assert (A : forall d, match dget (idx "nonce" n) d with Some s => if s =?s "" then Err (KeyError n) else Ok s | None => Err (KeyError n) end = Ok k
       <-> dget (idx "nonce" n) d = Some k).
    { intros d. destruct (dget (idx "nonce" n) d) as [s|]; [|split; discriminate]. destruct (s =?s "") eqn:Es.
      - apply String.eqb_eq in Es. subst s. split; [discriminate|]. intros [= E]. now destruct NE.
      - split; [now intros [= ->]|now intros [= ->]]. }
    rewrite !A. exact H.
  Qed.
  Definition clean (_ : string) : bool := true.
  Lemma I_item t : clean t = true -> forall d1 d2 cc, Rdb d1 d2 -> get_item d1 cc t k = get_item d2 cc t k.
  Proof. intros _ d1 d2 cc. apply R_item. Qed.
  Lemma I_mult ts : forallb clean ts = true -> forall d1 d2 a ps o, Rdb d1 d2 ->
    multiple_extend_request_args d1 a k ps ts o = multiple_extend_request_args d2 a k ps ts o.
  Proof. intros _ d1 d2 a ps o. apply R_mult. Qed.
  Lemma I_empty d1 d2 : Rdb d1 d2 -> get_state d1 "" = Err (KeyError "") /\ get_state d2 "" = Err (KeyError "").
  Proof. intros (_ & _ & _ & C1 & C2). split; now apply (closed_empty rnd32 rnd32_family). Qed.
  Lemma I_store w cc m t : t <> "iss" -> sim w (on_db (store_item (IMsg cc m) t k)) any.
  Proof. intros _. apply sim_store. Qed.
  Lemma sim_get_tokens W cl : tame W -> sim true (get_tokens W cl k) any.
  Proof. apply (P_SimK.sim_get_tokens k Hk Rdb c00 clean I_item R_iss I_mult I_store sim_bindx R_nonce); reflexivity. Qed.
  Lemma sim_refresh W cl scope : tame W -> sim true (refresh_access_token W cl k scope) any.
  Proof. apply (P_SimK.sim_refresh k Rdb c00 clean I_item I_store); reflexivity. Qed.
  Lemma sim_user_info W cl tok : tame W -> sim true (get_user_info W cl k tok) any.
  Proof. apply (P_SimK.sim_user_info k Rdb c00 clean I_mult I_empty I_store); reflexivity. Qed.
  Lemma sim_logout W cl uri : sim true (logout W cl k uri) any.
  Proof. apply (P_SimK.sim_logout k Rdb c00 clean I_mult sim_bindx); reflexivity. Qed.
  Lemma sim_finalize_auth W iss resp : tame W -> state_of resp = Some k ->
    sim true (finalize_auth (e_vrf W "authorization") (e_now W) iss resp) (fun m => dget "state" m = Some (VStr k)).
  Proof. apply (P_SimK.sim_finalize_auth k Rdb c00 clean I_item R_iss I_store); reflexivity. Qed.
  Lemma sim_finalize W cl iss resp collect : tame W -> state_of resp = Some k -> sim true (finalize W cl iss resp collect) any.
  Proof. apply (P_SimK.sim_finalize k Hk Rdb c00 clean I_item R_iss I_mult I_empty I_store sim_bindx R_nonce). reflexivity. Qed.
  Local Notation has_k := (P_SimK.has_k k).

  (** ** the authorization request *)
  Lemma has_k_set a x v : x <> "state" -> has_k a -> has_k (dset x v a).
  Proof. intros H [N S]. split; [now apply NoDup_dset|]. now rewrite dget_dset_neq by exact H. Qed.
  Lemma sim_authz_pre W cl args beh : plain_conf (conf_of cl "authorization") -> has_k args ->
    sim true (do_pre_construct (authz_svc W cl) args (kwb beh)) (fun ap => has_k (fst ap)).
  Proof.
    intros [PC _] HA. destruct (authz_fields W cl) as (AF1 & _ & _ & _ & AF5 & _). unfold do_pre_construct.
    rewrite AF1, method_args_plain by (rewrite AF5; exact PC).
    assert (KS : dget "state" (kwb beh) = None) by (destruct beh; reflexivity).
    apply sim_run_pre; [exact HA|]. intros m Hm a p Ha. rewrite in_app_iff in Hm. cbn [In] in Hm. destruct Hm as [[<-|[<-|[<-|[]]]]|Hm].
    - unfold lift_pre. eapply sim_bind with (Q := has_k); [|intros x Hx; now apply sim_ret].
      unfold set_state. rewrite KS, (proj2 Ha).
      assert (CK : created_key (e_state2 W) k = k) by (unfold created_key; now rewrite (eqb_neq _ _ k_ne)).
      intros c1 c2 C. pose proof (sim_create true (e_state2 W) (issuer c2) k CK c1 c2 C) as X. unfold on_db in X.
      destruct (R_ctx _ _ C) as [d Hd]. assert (EI : issuer c1 = issuer c2) by (now rewrite Hd). rewrite EI.
      destruct (create_state (e_state2 W) (issuer c2) k (sdb c1)) as [r1 d1], (create_state (e_state2 W) (issuer c2) k (sdb c2)) as [r2 d2].
      cbn [fst snd] in *. destruct X as (X1 & X2 & X3). split.
      + destruct X1 as [->|(_ & e1 & e2 & -> & ->)]; [now left|right; split; [reflexivity|eauto]].
      + split; [exact X2|]. destruct r1 as [q|]; [|discriminate]. intros x [= <-]. rewrite (X3 q eq_refl).
        split; [apply NoDup_dset; exact (proj1 Ha)|apply dget_dset_eq].
    - unfold lift_pre. eapply sim_bind with (Q := has_k); [|intros x Hx; now apply sim_ret].
      intros c1 c2 C. unfold pre_construct_pick_redirect_uri. destruct (R_ctx _ _ C) as [d Hd].
      assert (EP : pick_redirect_uri c2 (Some a) None = pick_redirect_uri c1 (Some a) None) by (now rewrite Hd). rewrite EP.
      destruct (pick_redirect_uri c1 (Some a) None) as [u|e]; cbn; (split; [now left|]; split; [exact C|]); [|discriminate].
      intros x [= <-]. now apply has_k_set.
    - unfold oidc_pre_construct. eapply sim_bind with (Q := has_k); [|intros x Hx; now apply sim_ret].
      intros c1 c2 C. destruct (R_ctx _ _ C) as [d Hd].
      assert (PU : forall c, exists f, oidc_pre_construct_args (e_nonce2 W) a c = (f, c)).
      { intros c. destruct (oidc_pre_construct_args (e_nonce2 W) a c) as [x c'] eqn:E. exists x. f_equal. revert E. unfold oidc_pre_construct_args.
        match goal with |- context [let '(rts, args1) := ?y in _] => destruct y as [rts a1] end.
        match goal with |- context [match ?y with Ok _ => _ | Err _ => _ end] => destruct y end; [|now intros [= _ <-]].
        destruct rts; [destruct (_ || _); now intros [= _ <-]|]. now destruct (dget "response_types" (behaviour c)) as [[| | | |[|] |]|]; intros [= _ <-]. }
      assert (EQ : fst (oidc_pre_construct_args (e_nonce2 W) a c2) = fst (oidc_pre_construct_args (e_nonce2 W) a c1)).
      { rewrite Hd. unfold oidc_pre_construct_args. cbn [behaviour set_db].
        match goal with |- context [let '(rts, args1) := ?y in _] => destruct y as [rts a1] end.
        match goal with |- context [match ?y with Ok _ => _ | Err _ => _ end] => destruct y end; [|reflexivity].
        destruct rts; [destruct (_ || _); reflexivity|]. now destruct (dget "response_types" (behaviour c1)) as [[| | | |[|] |]|]. }
      destruct (PU c1) as [f1 P1], (PU c2) as [f2 P2]. rewrite P1, P2 in *. cbn [fst snd] in *. subst f2.
      split; [now left|]. split; [exact C|]. intros x ->.
      destruct (oidc_pre_args_spec _ _ _ _ _ P1) as (_ & U1 & U2 & U3 & _). destruct Ha as [N2 S2].
      split; [auto|]. rewrite U2; [assumption|]; cbn; intuition discriminate.
    - destruct (cl_pkce cl); [|destruct Hm]. destruct Hm as [<-|[]].
      intros c1 c2 C. unfold add_code_challenge. destruct (R_ctx _ _ C) as [d Hd].
      assert (PP : pkce_conf c2 = pkce_conf c1) by (now rewrite Hd). rewrite PP.
      match goal with |- context [match ?x with Ok _ => _ | Err _ => _ end] => destruct x as [[v m]|e] end; [|apply (sim_raise true e _ c1 c2 C)].
      rewrite (proj2 Ha). clear PP Hd d. revert c1 c2 C.
      match goal with |- forall c1 c2, Rc c1 c2 -> agree ?w (fst (?f c1)) _ /\ _ => change (sim w f (fun ap => has_k (fst ap))) end.
      eapply sim_bind; [apply sim_store|]. intros _ _. apply sim_ret. cbn [fst]. apply has_k_set; [discriminate|]. now apply has_k_set.
  Qed.
  Lemma sim_authz_post W req kw : tame W -> dget "state" req = Some (VStr k) -> sim true (oidc_authz_post (e_reqobj W) req kw) any.
  Proof.
    intros T Hst. unfold oidc_authz_post. eapply sim_bind with (Q := any).
    - unfold oidc_post_construct. destruct (dget "scope" req) as [sc|]; [|apply sim_raise].
      destruct (py_in "openid" sc) as [o|]; [|apply sim_raise]. destruct (py_in "offline_access" sc) as [off|]; [|apply sim_raise].
      eapply sim_bind with (Q := any).
      + destruct o; [|now apply sim_ret]. destruct (dget "response_type" req) as [[| | | |[|x rt]|]|]; try apply sim_raise.
        destruct x; try apply sim_raise. destruct (_ || _); [|now apply sim_ret]. rewrite Hst.
        destruct (dget "nonce" req) as [[| | |n| |]|] eqn:En; try apply sim_raise. apply sim_bindx, in_nonce.
      + intros _ _.
        assert (S1 : dget "state" (if off && negb (dhas "prompt" req) then dset "prompt" (strs ["consent"]) req else req) = Some (VStr k)).
        { destruct (off && negb (dhas "prompt" req)); [rewrite dget_dset_neq by discriminate|]; exact Hst. }
        rewrite S1. eapply sim_bind; [apply sim_store|]. intros _ _. now apply sim_ret.
    - intros r _. intros c1 c2 C. unfold oidc_request_param. destruct (R_ctx _ _ C) as [d Hd].
      assert (P : forall x : res msg, agree true x x /\ Rc c1 c2 /\ (forall a, x = Ok a -> any a)) by (intros x; split; [now left|]; split; [exact C|intros; exact I]).
      destruct (dget "request_param" kw) as [[| | |p| |]|]; try (destruct (truthy _); apply (P (Err _)) || apply (P (Ok _))); try apply (P (Ok _)).
      destruct (p =?s ""); [apply (P (Ok _))|].
      assert (ER : e_reqobj W c2 r p kw = e_reqobj W c1 r p kw) by (rewrite Hd; apply (proj2 (proj2 T))). rewrite ER.
      destruct (e_reqobj W c1 r p kw); [apply (P (Ok _))|apply (P (Err _))].
  Qed.
  Lemma skipped_str q : q <> "" -> skipped (VStr q) = false.
  Proof. destruct q; [now intros []|reflexivity]. Qed.
  Lemma kwb_state W cl beh a : with_state_kw (authz_svc W cl) (kwb beh) a = a.
  Proof. unfold with_state_kw. destruct beh; reflexivity. Qed.
  Lemma gather_has_k o1 c a3 : authz_gather o1 c = Ok a3 -> has_k o1 -> has_k a3.
  Proof.
    intros Eg H1. unfold authz_gather in Eg. destruct (dhas "redirect_uri" o1); [injection Eg as <-; exact H1|].
    destruct (redirect_uris c); [discriminate|]. injection Eg as <-. apply has_k_set; [discriminate|exact H1].
  Qed.
  Lemma new_has_k a3 req : msg_new cAuthzRequest a3 = Ok req -> has_k a3 -> dget "state" req = Some (VStr k).
  Proof.
    intros Em [N3 S3]. pose proof (msg_new_get _ _ _ N3 Em "state") as E. rewrite S3, (skipped_str k k_ne) in E. rewrite E.
    apply shown_plain; reflexivity.
  Qed.
  Lemma gathered_k s c a a3 : gather_request_args s c a = Ok a3 -> has_k a -> exists o1, has_k o1 /\ s_gather s o1 c = Ok a3.
  Proof.
    intros Eg [Na Ha]. unfold gather_request_args in Eg.
    destruct (gather_loop s c (c_par (s_cls s)) a) as [o1|] eqn:E5; [|discriminate]. cbn [rbind] in Eg. exists o1. split; [|exact Eg].
    destruct (gather_loop_get _ _ _ _ _ E5) as [NO GO]. split; [exact (NO Na)|rewrite GO, Ha; reflexivity].
  Qed.
  Lemma authz_gathered W cl beh a a3 c req : has_k a ->
    gather_request_args (authz_svc W cl) c (with_state_kw (authz_svc W cl) (kwb beh) a) = Ok a3 -> msg_new (s_cls (authz_svc W cl)) a3 = Ok req ->
    dget "state" req = Some (VStr k).
  Proof.
    intros HA Eg Em. rewrite kwb_state in Eg. destruct (gathered_k _ _ _ _ Eg HA) as (o1 & H1 & Eg1).
    exact (new_has_k a3 req Em (gather_has_k o1 c a3 Eg1 H1)).
  Qed.
  Lemma sim_authz_construct W cl args beh : tame W -> plain_conf (conf_of cl "authorization") -> has_k args ->
    sim true (construct (authz_svc W cl) args (kwb beh)) any.
  Proof.
    intros T PC HA. destruct (authz_fields W cl) as (_ & AF2 & AF3 & _).
    apply sim_construct with (QA := has_k) (QR := fun r => dget "state" r = Some (VStr k)).
    - apply sim_authz_pre; [exact PC|exact HA].
    - rewrite AF3. intros d c a. reflexivity.
    - intros a a3 c req. apply authz_gathered.
    - intros r post Hr. unfold do_post_construct. rewrite AF2. cbn [run_post].
      eapply sim_bind; [apply sim_authz_post; [exact T|exact Hr]|]. intros x _. apply sim_ret. exact I.
  Qed.
  Lemma sim_init W cl reqs beh : tame W -> e_state W = k -> plain_conf (conf_of cl "authorization") -> sim true (init_authorization W cl reqs beh) any.
  Proof.
    intros T Hs PC. unfold init_authorization.
    eapply sim_bind with (Q := fun a => NoDup (dkeys a)).
    { apply sim_ctx; [reflexivity|]. intros c a _ Ha. now destruct (authz_args_spec _ _ _ _ Ha) as (N & _). }
    intros args N. eapply sim_bind with (Q := any); [now apply sim_ctx_any|]. intros iss _.
    rewrite Hs. eapply sim_bind with (Q := fun q => q = k); [apply sim_create; reflexivity|]. intros st Hst. subst st.
    eapply sim_bind with (Q := any); [apply sim_bindx, in_nonce|]. intros _ _.
    eapply sim_bind with (Q := any); [|intros i _; apply sim_ret; exact I]. fold (kwb beh).
    destruct (authz_fields W cl) as (_ & _ & _ & _ & _ & _ & AF7 & AF8 & _).
    apply sim_grp; [exact AF7|intros d c; now rewrite !AF8|destruct beh; reflexivity|].
    apply sim_authz_construct; [exact T|exact PC|]. split; [now apply NoDup_dset|]. apply dget_dset_eq.
  Qed.

  (** ** what other sessions do *)
  Variable ns : string -> Prop.   (* the nonces of session k *)
  Definition Inv (d : db) : Prop :=
    (forall n, dget (idx "nonce" n) d = Some k -> ns n) /\
    (forall k' refs, rnd32 k' -> k' <> k -> dget (ref_key k') d = Some (json_dumps (refs_val refs)) ->
       forall v, In ("nonce", v) refs -> ~ ns v).
  Definition op_at (q : string) (own : string -> Prop) (x : op) : Prop :=
    match x with
    | Create rnd _ key => created_key rnd key = q
    | Store _ _ _ s => s = q
    | Bind x v s => s = q /\ (x = "nonce" -> own v)
    | Remove s => s = q
    end.
  Lemma dumps_refs r r' : json_dumps (refs_val r) = json_dumps (refs_val r') -> r = r'.
  Proof.
    intros H0. assert (E : refs_val r = refs_val r') by (enough (Some (refs_val r) = Some (refs_val r')) by congruence; now rewrite <- !json_roundtrip, H0). clear H0.
    unfold refs_val in E. injection E as E. revert r' E. induction r as [|[a b] r IH]; intros [|[a' b'] r'] E; try discriminate; [reflexivity|].
    cbn in E. injection E as -> -> E. f_equal. auto.
  Qed.
  Lemma In_dset {A} p (v : A) d q w : In (q, w) (dset p v d) -> (q = p /\ w = v) \/ In (q, w) d.
  Proof.
    induction d as [|[a b] d IH]; cbn [dset].
    - intros [[= <- <-]|[]]. auto.
    - destruct (a =?s p) eqn:E.
      + apply String.eqb_eq in E. subst a. intros [[= <- <-]|H]; [auto|right; now right].
      + intros [[= <- <-]|H]; [right; now left|]. destruct (IH H) as [?|?]; [auto|right; now right].
  Qed.
  (** writing the text of session q *)
  Lemma Inv_text q t d : rnd32 q -> Inv d -> Inv (dset q t d).
  Proof.
    intros Hq [I1 I2]. split.
    - intros n. rewrite dget_dset_neq by (apply not_eq_sym; apply (K_idx rnd32 rnd32_family); [exact Hq|apply in_nonce]). apply I1.
    - intros k' refs H1 H2. rewrite dget_dset_neq by (apply not_eq_sym; now apply (K_ref rnd32 rnd32_family)). now apply I2.
  Qed.
  Lemma store_writes i t q d : snd (store_item i t q d) = d \/ exists txt, snd (store_item i t q d) = dset q txt d.
  Proof.
    unfold store_item. destruct (match get_state d q with Ok s => Ok s | Err (KeyError _) => Ok [] | Err e => Err e end); [|now left].
    destruct (msg_set _ _ _ _); [right; eexists; reflexivity|now left].
  Qed.
  Lemma create_writes rnd iss key d : snd (create_state rnd iss key d) = d \/ exists txt, snd (create_state rnd iss key d) = dset (created_key rnd key) txt d.
  Proof.
    unfold create_state, created_key. destruct (key =?s ""); [|destruct (_ && _); [now left|]]; (destruct (msg_new _ _); [right; eexists; reflexivity|now left]).
  Qed.
  Lemma bind_writes x v q d : rnd32 q -> In x kinds -> closed rnd32 d ->
    exists refs, snd (store_x2state v q x d) = dset (ref_key q) (json_dumps (refs_val refs)) (dset (idx x v) q d) /\
      forall y w, In (y, w) refs -> (y = x /\ w = v) \/ exists old, dget (ref_key q) d = Some (json_dumps (refs_val old)) /\ In (y, w) old.
  Proof.
    intros Hq Hx C. unfold store_x2state. rewrite (index_key_ok _ _ Hx).
    assert (RK : dget (ref_key q) (dset (idx x v) q d) = dget (ref_key q) d) by (apply dget_dset_neq; now apply idx_ref). rewrite RK.
    destruct (dget (ref_key q) d) as [txt|] eqn:Et.
    - destruct (closed_ref_text rnd32 rnd32_family q d txt C Hq Et) as (old & -> & _). unfold refs_val at 1. rewrite json_roundtrip. cbn [snd].
      exists (dset x v old). pose proof (refs_val_set x v old) as RV. unfold refs_val at 1 in RV. rewrite RV. split; [reflexivity|].
      intros y w H. destruct (In_dset _ _ _ _ _ H) as [?|?]; [auto|right; eauto].
    - exists [(x, v)]. split; [reflexivity|]. intros y w [[= <- <-]|[]]. auto.
  Qed.
  Lemma remove_refs_get refs p : forall d,
    dget p (snd (remove_refs (map (fun kv => (fst kv, VStr (snd kv))) refs) d)) = dget p d \/
    (dget p (snd (remove_refs (map (fun kv => (fst kv, VStr (snd kv))) refs) d)) = None /\ exists x v, In (x, v) refs /\ index_key x v = Ok p).
  Proof.
    induction refs as [|[x v] r IH]; intros d; cbn [map fst snd remove_refs]; [now left|].
    destruct (index_key x v) as [ik|] eqn:Ei; [|now left]. destruct (dhas ik d); [|now left].
    destruct (IH (ddel ik d)) as [H|[H (y & w & Hy & Hw)]].
    - rewrite H. destruct (String.eqb_spec ik p) as [->|N].
      + right. split; [apply dget_ddel_eq|]. exists x, v. split; [now left|exact Ei].
      + left. now apply dget_ddel_neq.
    - right. split; [exact H|]. exists y, w. split; [now right|exact Hw].
  Qed.
  Definition same_k (d d' : db) : Prop :=
    dget k d' = dget k d /\ dget (ref_key k) d' = dget (ref_key k) d /\
    (forall n, dget (idx "nonce" n) d' = Some k <-> dget (idx "nonce" n) d = Some k).
  Lemma same_k_refl d : same_k d d.
  Proof. repeat split; auto. Qed.
  Lemma same_k_text q t d : rnd32 q -> q <> k -> same_k d (dset q t d).
  Proof.
    intros Hq N. split; [now apply dget_dset_neq|]. split; [apply dget_dset_neq, not_eq_sym; now apply (K_ref rnd32 rnd32_family)|].
    intros n. rewrite dget_dset_neq by (apply not_eq_sym; apply (K_idx rnd32 rnd32_family); [exact Hq|apply in_nonce]). reflexivity.
  Qed.
  Lemma other_step x q d : op_ok rnd32 x -> q <> k -> op_at q (fun v => ~ ns v) x -> closed rnd32 d -> Inv d ->
    same_k d (snd (cstep d x)) /\ Inv (snd (cstep d x)).
  Proof.
    intros Ho Nq Hat C HI. destruct x as [rnd iss key|cc m t s|x v s|s]; cbn [cstep op_ok op_at] in *.
    - destruct (create_writes rnd iss key d) as [->|[txt ->]]; [auto using same_k_refl|]. rewrite Hat in *.
      split; [now apply same_k_text|now apply Inv_text].
    - subst s. assert (E : snd (let (r, d') := store_item (IMsg cc m) t q d in (match r with Ok _ => Ok "" | Err e => Err e end, d')) = snd (store_item (IMsg cc m) t q d))
        by (now destruct (store_item (IMsg cc m) t q d)). rewrite E.
      destruct (store_writes (IMsg cc m) t q d) as [->|[txt ->]]; [auto using same_k_refl|].
      split; [now apply same_k_text|now apply Inv_text].
    - destruct Hat as [-> Hn]. destruct Ho as [Hq Hx].
      assert (E : snd (let (r, d') := store_x2state v q x d in (match r with Ok _ => Ok "" | Err e => Err e end, d')) = snd (store_x2state v q x d))
        by (now destruct (store_x2state v q x d)). rewrite E.
      destruct (bind_writes x v q d Hq Hx C) as (refs & -> & HR). destruct HI as [I1 I2].
      assert (XN : forall n, dget (idx "nonce" n) (dset (ref_key q) (json_dumps (refs_val refs)) (dset (idx x v) q d)) =
         if idx x v =?s idx "nonce" n then Some q else dget (idx "nonce" n) d).
      { intros n. rewrite dget_dset_neq by (apply not_eq_sym, idx_ref, in_nonce). now rewrite dget_dset. }
      split; [split; [|split]|split].
      + rewrite !dget_dset_neq; [reflexivity|now apply K_idx'|apply (K_ref rnd32 rnd32_family); assumption].
      + rewrite !dget_dset_neq; [reflexivity|now apply idx_ref|intros E'; apply ref_inj in E'; congruence].
      + intros n. rewrite XN. destruct (String.eqb_spec (idx x v) (idx "nonce" n)) as [E'|N']; [|reflexivity].
        apply idx_inj in E' as [-> ->]; [|assumption|apply in_nonce]. split; [congruence|]. intros Hd. exfalso. exact (Hn eq_refl (I1 _ Hd)).
      + intros n. rewrite XN. destruct (String.eqb_spec (idx x v) (idx "nonce" n)) as [E'|N']; [congruence|apply I1].
      + intros k' refs' H1 H2 H3 w Hw. destruct (String.eqb_spec (ref_key q) (ref_key k')) as [E'|N'].
        * apply ref_inj in E'. subst k'. rewrite dget_dset_eq in H3. assert (E' : refs = refs') by (apply dumps_refs; congruence). subst refs'.
          destruct (HR _ _ Hw) as [[<- ->]|(old & Ho & Hin)]; [now apply Hn|]. exact (I2 q old Hq Nq Ho _ Hin).
        * rewrite !dget_dset_neq in H3; [|now apply idx_ref|exact N']. exact (I2 _ _ H1 H2 H3 _ Hw).
    - subst s. assert (E : snd (let (r, d') := remove_state q d in (match r with Ok _ => Ok "" | Err e => Err e end, d')) = snd (remove_state q d))
        by (now destruct (remove_state q d)). rewrite E.
      assert (SK : same_k d (ddel q d)).
      { split; [now apply dget_ddel_neq|]. split; [apply dget_ddel_neq, not_eq_sym; now apply (K_ref rnd32 rnd32_family)|].
        intros n. rewrite dget_ddel_neq by (apply not_eq_sym; apply (K_idx rnd32 rnd32_family); [exact Ho|apply in_nonce]). reflexivity. }
      assert (IK : Inv (ddel q d)).
      { destruct HI as [I1 I2]. split.
        - intros n. rewrite dget_ddel_neq by (apply not_eq_sym; apply (K_idx rnd32 rnd32_family); [exact Ho|apply in_nonce]). apply I1.
        - intros k' refs H1 H2. rewrite dget_ddel_neq by (apply not_eq_sym; now apply (K_ref rnd32 rnd32_family)). now apply I2. }
      unfold remove_state. destruct (dhas q d); [|split; [apply same_k_refl|exact HI]].
      assert (RQ : dget (ref_key q) (ddel q d) = dget (ref_key q) d) by (apply dget_ddel_neq, not_eq_sym; now apply (K_ref rnd32 rnd32_family)).
      destruct (dget (ref_key q) (ddel q d)) as [txt|] eqn:Et; [|auto].
      destruct (closed_ref_text rnd32 rnd32_family q d txt C Ho (eq_sym RQ)) as (old & -> & HF).
      rewrite json_roundtrip. cbv iota beta delta [refs_val].
      assert (NN : forall v, In ("nonce", v) old -> ~ ns v) by (apply (proj2 HI q old Ho Nq); congruence).
      assert (KI : forall x v, In (x, v) old -> In x kinds) by (rewrite Forall_forall in HF; intros x v Hin; exact (HF _ Hin)).
      assert (KEEP : forall p, (forall x v, In (x, v) old -> p <> idx x v) -> dget p (snd (remove_refs (map (fun kv => (fst kv, VStr (snd kv))) old) (ddel q d))) = dget p (ddel q d)).
      { intros p Hp. destruct (remove_refs_get old p (ddel q d)) as [H|[_ (x & v & Hin & Hix)]]; [exact H|].
        exfalso. rewrite (index_key_ok _ _ (KI _ _ Hin)) in Hix. injection Hix as Hix. now apply (Hp x v Hin). }
      assert (NONCE : forall n, dget (idx "nonce" n) (snd (remove_refs (map (fun kv => (fst kv, VStr (snd kv))) old) (ddel q d))) = Some k <->
         dget (idx "nonce" n) (ddel q d) = Some k).
      { intros n. destruct (remove_refs_get old (idx "nonce" n) (ddel q d)) as [->|[-> (x & v & Hin & Hix)]]; [reflexivity|].
        rewrite (index_key_ok _ _ (KI _ _ Hin)) in Hix. injection Hix as Hix. apply idx_inj in Hix as [-> ->]; [|eauto|apply in_nonce].
        split; [discriminate|]. intros Hd. exfalso. exact (NN _ Hin (proj1 IK _ Hd)). }
      destruct SK as (S1 & S2 & S3). split; [split; [|split]|split].
      + rewrite KEEP; [exact S1|]. intros x v Hin E'. symmetry in E'. now apply K_idx' in E'; [|eauto].
      + rewrite KEEP; [exact S2|]. intros x v Hin E'. symmetry in E'. now apply idx_ref in E'; [|eauto].
      + intros n. rewrite NONCE. apply S3.
      + intros n. rewrite NONCE. apply (proj1 IK).
      + intros k' refs' H1 H2. rewrite KEEP; [now apply (proj2 IK)|]. intros x v Hin E'. symmetry in E'. now apply idx_ref in E'; [|eauto].
  Qed.
  Lemma self_step x d : op_ok rnd32 x -> op_at k ns x -> (forall s, x <> Remove s) -> closed rnd32 d -> Inv d -> Inv (snd (cstep d x)).
  Proof.
    intros Ho Hat NR C HI. destruct x as [rnd iss key|cc m t s|x v s|s]; cbn [cstep op_ok op_at] in *; [| | |now destruct (NR s)].
    - destruct (create_writes rnd iss key d) as [->|[txt ->]]; [auto|]. rewrite Hat in *. now apply Inv_text.
    - subst s. assert (E : snd (let (r, d') := store_item (IMsg cc m) t k d in (match r with Ok _ => Ok "" | Err e => Err e end, d')) = snd (store_item (IMsg cc m) t k d))
        by (now destruct (store_item (IMsg cc m) t k d)). rewrite E.
      destruct (store_writes (IMsg cc m) t k d) as [->|[txt ->]]; [auto|]. now apply Inv_text.
    - destruct Hat as [-> Hn]. destruct Ho as [_ Hx].
      assert (E : snd (let (r, d') := store_x2state v k x d in (match r with Ok _ => Ok "" | Err e => Err e end, d')) = snd (store_x2state v k x d))
        by (now destruct (store_x2state v k x d)). rewrite E.
      destruct (bind_writes x v k d Hk Hx C) as (refs & -> & _). destruct HI as [I1 I2]. split.
      + intros n. rewrite dget_dset_neq by (apply not_eq_sym, idx_ref, in_nonce). rewrite dget_dset.
        destruct (String.eqb_spec (idx x v) (idx "nonce" n)) as [E'|N']; [|apply I1].
        apply idx_inj in E' as [-> ->]; [|assumption|apply in_nonce]. intros _. now apply Hn.
      + intros k' refs' H1 H2. rewrite !dget_dset_neq; [now apply I2|now apply idx_ref|intros E'; apply ref_inj in E'; congruence].
  Qed.
  (** a sequence of operations of another session *)
  Lemma others_run ops : forall d, Forall (fun x => op_ok rnd32 x /\ exists q, q <> k /\ op_at q (fun v => ~ ns v) x) ops -> closed rnd32 d -> Inv d ->
    same_k d (snd (crun d ops)) /\ Inv (snd (crun d ops)).
  Proof.
    induction ops as [|x ops IH]; intros d HF C HI; [split; [apply same_k_refl|exact HI]|]. inversion HF as [|? ? [Hx (q & Nq & Hat)] HF']; subst.
    destruct (other_step x q d Hx Nq Hat C HI) as [S1 I1]. pose proof (closed_step rnd32 rnd32_family d x C Hx) as C1. cbn [crun].
    destruct (cstep d x) as [y d1]. cbn [snd] in *. destruct (IH d1 HF' C1 I1) as [S2 I2]. destruct (crun d1 ops) as [ys d2]. cbn [snd] in *.
    split; [|exact I2]. destruct S1 as (A1 & A2 & A3), S2 as (B1 & B2 & B3). split; [congruence|]. split; [congruence|].
    intros n. now rewrite B3.
  Qed.
  Lemma self_run ops : forall d, Forall (fun x => op_ok rnd32 x /\ op_at k ns x /\ (forall s, x <> Remove s)) ops -> closed rnd32 d -> Inv d ->
    Inv (snd (crun d ops)).
  Proof.
    induction ops as [|x ops IH]; intros d HF C HI; [exact HI|]. inversion HF as [|? ? (Hx & Hat & NR) HF']; subst.
    pose proof (self_step x d Hx Hat NR C HI) as I1. pose proof (closed_step rnd32 rnd32_family d x C Hx) as C1. cbn [crun].
    destruct (cstep d x) as [y d1]. cbn [snd] in *. pose proof (IH d1 HF' C1 I1) as I2. now destruct (crun d1 ops).
  Qed.
End Sim.

(** ** the session a call writes to *)
Definition call_nonces (c0 : ctx) (o : call) (n : string) : Prop := match o with CInit W reqs _ => uses_nonce c0 W reqs n | _ => False end.
Lemma state_of_parsed W resp m0 c m c' s : tame W -> msg_new cAuthzResponse resp = Ok m0 ->
  parse_deserialised (e_vrf W "authorization") oidc_authz_post_parse m0 "" c = (Ok m, c') -> dget "state" m = Some (VStr s) -> state_of resp = Some s.
Proof. intros T E0 E S. unfold state_of. rewrite E0, <- (parse_state _ _ _ _ _ T E), S. reflexivity. Qed.
Lemma state_of_final W iss resp c m c' s : tame W -> finalize_auth (e_vrf W "authorization") (e_now W) iss resp c = (Ok m, c') ->
  dget "state" m = Some (VStr s) -> state_of resp = Some s.
Proof.
  intros T H S. unfold finalize_auth in H. destruct (msg_new cAuthzResponse resp) as [r0|] eqn:E0; [|discriminate].
  apply bind_ok in H. destruct H as (m1 & c1 & E1 & H). destruct (is_error_message m1).
  { injection H as <- _. eapply state_of_parsed; eauto. }
  destruct (dget "state" m1) as [[| | |s1| |]|] eqn:Es; try discriminate.
  enough (s = s1) by (subst; eapply state_of_parsed; eauto).
  destruct (get_iss (sdb c1) s1) as [i|[]]; try discriminate. destruct (val_eqb i (VStr iss)); [|discriminate].
  apply bind_ok in H. destruct H as (r & c2 & E2 & H). apply bind_ok in H. destruct H as (u & c3 & _ & H). injection H as <- _.
  unfold authz_update_service_context in E2. destruct (add_expires_at (e_now W) m1) eqn:Ea; [|discriminate].
  apply bind_ok in E2. destruct E2 as (u' & c4 & _ & E2). injection E2 as -> _. rewrite (expires_state _ _ _ Ea) in S. congruence.
Qed.
Lemma call_at cl c0 o x : tame_call o -> call_op cl c0 o x ->
  exists s, session_of o = Some s /\ op_at s (call_nonces c0 o) x /\ (forall q, x = Remove q -> o = CClear s).
Proof.
  intros T H.
  assert (TK : forall vrf s y, token_op c0 vrf s y -> forall own, op_at s own y /\ forall q, y <> Remove q).
  { intros vrf s y [(m & _ & ->)|(v & _ & ->)] own; cbn; (split; [|discriminate]); [reflexivity|split; [reflexivity|discriminate]]. }
  assert (UI : forall s y, userinfo_op s y -> forall own, op_at s own y /\ forall q, y <> Remove q).
  { intros s y (c & m & ->) own. cbn. split; [reflexivity|discriminate]. }
  assert (AU : forall vrf s y, authz_op c0 vrf s y -> forall own, op_at s own y /\ forall q, y <> Remove q).
  { intros vrf s y (m & _ & ->) own. cbn. split; [reflexivity|discriminate]. }
  assert (W1 : forall s y own, session_of o = Some s -> op_at s own y /\ (forall q, y <> Remove q) -> own = call_nonces c0 o ->
     exists s, session_of o = Some s /\ op_at s (call_nonces c0 o) y /\ (forall q, y = Remove q -> o = CClear s)).
  { intros s y own E [E1 E2] ->. exists s. split; [exact E|]. split; [exact E1|]. intros q E3. now destruct (E2 q). }
  destruct o as [W reqs beh|W iss resp collect|W iss resp|W st|W st scope|W st tok|W st uri|st]; cbn [call_op session_of call_nonces tame_call world_of] in *.
  - exists (e_state W). split; [reflexivity|]. destruct x; cbn in *; try contradiction; (split; [|discriminate]); intuition.
  - destruct H as [(s & Hs & [[AD AO]|[AN H]])|H].
    + destruct AD as (c1 & m0 & m & c2 & _ & E0 & E1 & _ & Es). eapply (W1 s); [eapply state_of_parsed; eauto| |reflexivity]. eapply AU; eauto.
    + destruct AN as (c1 & m & c2 & _ & E1 & _ & Es). eapply (W1 s); [eapply state_of_final; eauto| |reflexivity].
      destruct H as [H|H]; [eapply TK; eauto|eapply UI; eauto].
    + destruct H as (c1 & m & c2 & t & c3 & s & _ & _ & E1 & _ & Es & _ & _ & v & H).
      eapply (W1 s); [eapply state_of_final; eauto| |reflexivity].
      destruct H as [(claims & _ & [[_ ->]|[_ ->]])|(_ & _ & ->)]; (split; [split; [reflexivity|discriminate]|discriminate]).
  - destruct H as (s & Hs & AD & AO). destruct AD as (c1 & m0 & m & c2 & _ & E0 & E1 & _ & Es).
    eapply (W1 s); [eapply state_of_parsed; eauto| |reflexivity]. eapply AU; eauto.
  - eapply (W1 st); [reflexivity|eapply TK; eauto|reflexivity].
  - destruct H as (m & _ & ->). eapply (W1 st); [reflexivity| |reflexivity]. split; [reflexivity|discriminate].
  - eapply (W1 st); [reflexivity|eapply UI; eauto|reflexivity].
  - destruct H as (v & ->). eapply (W1 st); [reflexivity| |reflexivity]. split; [split; [reflexivity|discriminate]|discriminate].
  - subst x. exists st. split; [reflexivity|]. split; [reflexivity|]. auto.
Qed.

(** ** histories *)
Notation Rc k c0 := (P_Sim.Rc (Rdb k) c0).
Lemma sim_call_of k c0 cl o : rnd32 k -> plain_client cl -> tame_call o -> session_of o = Some k -> o <> CClear k ->
  forall c1 c2, Rc k c0 c1 c2 -> same_outcome (answer_of cl o c1) (answer_of cl o c2) /\ Rc k c0 (run_call cl o c1) (run_call cl o c2).
Proof.
  intros Hk [PC1 PC2] T S NC c1 c2 C.
  assert (G : forall A (m : M A) (f : A -> answer), P_Sim.sim (Rdb k) c0 true m any ->
     same_outcome (rmap f (fst (m c1))) (rmap f (fst (m c2))) /\ Rc k c0 (snd (m c1)) (snd (m c2))).
  { intros A m f H. destruct (H _ _ C) as (X & Y & _). split; [|exact Y]. destruct X as [->|(_ & e1 & e2 & -> & ->)]; [now left|right; cbn; eauto]. }
  destruct o as [W reqs beh|W iss resp collect|W iss resp|W st|W st scope|W st tok|W st uri|st]; cbn [answer_of run_call session_of tame_call world_of] in *;
    try (assert (st = k) by congruence; subst st); try apply G.
  - apply sim_init; auto. congruence.
  - now apply sim_finalize.
  - eapply sim_post; [now apply sim_finalize_auth|]. intros; exact I.
  - now apply sim_get_tokens.
  - now apply sim_refresh.
  - now apply sim_user_info.
  - now apply sim_logout.
  - now destruct NC.
Qed.
Definition nonces_of (c0 : ctx) (k : string) (os : list call) (n : string) : Prop :=
  exists W reqs beh, In (CInit W reqs beh) os /\ e_state W = k /\ uses_nonce c0 W reqs n.
Lemma schedule_run k c0 cl os : rnd32 k -> plain_client cl -> schedule c0 k os ->
  forall l, incl l os -> forall c1 c2, Rc k c0 c1 c2 -> Inv k (nonces_of c0 k os) (sdb c1) ->
  Forall2 same_outcome (answers cl k l c1) (answers cl k (calls_of k l) c2) /\
  Rc k c0 (run_calls cl l c1) (run_calls cl (calls_of k l) c2).
Proof.
  intros Hk PC (HO & HT & HN & HC). rewrite Forall_forall in HO, HT. induction l as [|o l IH]; intros HI c1 c2 C I1; [split; [constructor|exact C]|].
  assert (Ho : In o os) by (apply HI; now left). assert (HI' : incl l os) by (intros x Hx; apply HI; now right).
  assert (C1 : closed rnd32 (sdb c1)) by (destruct C as ((_ & _ & _ & X & _) & _); exact X).
  destruct (call_writes_from c0 cl o c1 PC (HO _ Ho) C1 (proj1 (proj2 C))) as (A1 & ops & A2 & A3).
  unfold calls_of. cbn [filter answers]. destruct (about k o) eqn:Eab.
  - assert (S : session_of o = Some k).
    { unfold about in Eab. destruct (session_of o) as [s|]; [|discriminate]. apply String.eqb_eq in Eab. now subst s. }
    assert (NC : o <> CClear k) by (intros ->; contradiction).
    destruct (sim_call_of k c0 cl o Hk PC (HT _ Ho) S NC c1 c2 C) as [X Y].
    assert (I2 : Inv k (nonces_of c0 k os) (sdb (run_call cl o c1))).
    { rewrite A3. apply self_run; auto. eapply Forall_impl; [|exact A2]. cbn. intros x [X1 X2]. split; [exact X1|].
      destruct (call_at cl c0 o x (HT _ Ho) X2) as (s & Es & Hat & HR). assert (s = k) by congruence. subst s. split.
      - destruct x; cbn in *; auto. destruct Hat as [-> Hn]. split; [reflexivity|]. intros E. specialize (Hn E).
        destruct o; cbn in Hn; try contradiction. cbn in S. injection S as S. exists W, reqs, beh. auto.
      - intros q ->. apply NC. eapply HR; eauto. }
    cbn [answers]. rewrite Eab. destruct (IH HI' _ _ Y I2) as [Z1 Z2].
    split; [constructor; [exact X|exact Z1]|exact Z2].
  - assert (OT : Forall (fun x => op_ok rnd32 x /\ exists q, q <> k /\ op_at q (fun v => ~ nonces_of c0 k os v) x) ops).
    { eapply Forall_impl; [|exact A2]. cbn. intros x [X1 X2]. split; [exact X1|]. destruct (call_at cl c0 o x (HT _ Ho) X2) as (s & Es & Hat & HR).
      assert (Ns : s <> k) by (intros ->; unfold about in Eab; rewrite Es, String.eqb_refl in Eab; discriminate).
      exists s. split; [exact Ns|]. destruct x; cbn in *; auto. destruct Hat as [-> Hn]. split; [reflexivity|]. intros E. specialize (Hn E).
      destruct o; cbn in Hn; try contradiction. cbn in Es. injection Es as Es. intros (W' & reqs' & beh' & Hin & Hs & Hu).
      apply Ns. rewrite <- Es. eapply HN; [exact Hin|exact Ho|exact Hs|exact Hu|exact Hn]. }
    destruct (others_run k Hk (nonces_of c0 k os) ops (sdb c1) OT C1 I1) as [SK I2]. rewrite <- A3 in SK, I2.
    apply IH; [exact HI'| |exact I2]. destruct C as ((D1 & D2 & D3 & _ & D5) & E1 & E2). destruct SK as (B1 & B2 & B3).
    split; [|split; [rewrite A1, E1; reflexivity|exact E2]].
    split; [congruence|]. split; [congruence|]. split; [intros n; now rewrite B3|]. split; [|exact D5].
    rewrite A3. apply closed_run; [apply rnd32_family|exact C1|]. eapply Forall_impl; [|exact OT]. cbn; tauto.
Qed.
