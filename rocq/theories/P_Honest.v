(** Proofs for T_Honest.v: every step of a login at an honest provider succeeds. *)
From Verif Require Import Base BaseP Json JsonP Msg M_State S_State P_State M_Ctx M_Codec M_Authz M_ClientAuth M_Service M_Token M_Handler
  S_Service S_Token S_Handler S_Flow S_Trace S_Sched S_Retry P_Ctx P_Authz P_Codec P_ClientAuth P_Service P_Wire P_Token
  P_Handler P_Flow P_Trace P_Flow2 P_Handler2 P_Sim P_SimK P_Sched P_Retry S_Traffic S_Honest.

Section Own.
  Variable k : string.
  Hypothesis Hk : rnd32 k.
  Let Kne : k <> "" := proj1 rnd32_family k Hk.

  (** ** the store of a session that is there *)
  Lemma own_store i d c m t : sound k i d -> t <> "iss" ->
    exists d', store_item (IMsg c m) t k d = (Ok tt, d') /\ sound k i d' /\
      (forall cc, get_item d' cc t k = msg_new cc (msg_to_dict c m)) /\
      (forall cc t', t' <> t -> t' <> "iss" -> get_item d' cc t' k = get_item d cc t' k) /\
      (forall n, get_state_by_nonce d n = Ok k -> get_state_by_nonce d' n = Ok k).
  Proof.
    intros S Ht. assert (OO : own_op k (Store c m t k)) by (split; auto).
    pose proof (own_done k Hk i d _ S OO) as D. destruct (own_step k Hk i d _ S OO) as (S1 & I1 & N1). cbn [cstep] in *.
    destruct (store_item (IMsg c m) t k d) as [[[]|e] d'] eqn:E; [|discriminate]. cbn [snd] in *. exists d'. split; [reflexivity|].
    split; [exact S1|]. split; [intros cc; rewrite (I1 cc t Ht), eqb_refl; reflexivity|]. split.
    - intros cc t' N1' N2'. rewrite (I1 cc t' N2'). now rewrite (eqb_neq t t') by congruence.
    - unfold get_state_by_nonce in *. intros n Hn. rewrite (by_x_get d d' "nonce" n in_nonce); [exact Hn|]. apply N1.
  Qed.
  Lemma own_bind i d x v : sound k i d -> In x kinds -> x <> "nonce" ->
    exists d', store_x2state v k x d = (Ok tt, d') /\ sound k i d' /\
      (forall cc t, t <> "iss" -> get_item d' cc t k = get_item d cc t k) /\
      (forall n, get_state_by_nonce d n = Ok k -> get_state_by_nonce d' n = Ok k).
  Proof.
    intros S Hx Nx. assert (OO : own_op k (Bind x v k)) by (split; auto).
    pose proof (own_done k Hk i d _ S OO) as D. destruct (own_step k Hk i d _ S OO) as (S1 & I1 & N1). cbn [cstep] in *.
    destruct (store_x2state v k x d) as [[[]|e] d'] eqn:E; [|discriminate]. cbn [snd] in *. exists d'. split; [reflexivity|].
    split; [exact S1|]. split; [exact I1|].
    unfold get_state_by_nonce in *. intros n Hn. rewrite (by_x_get d d' "nonce" n in_nonce); [exact Hn|]. rewrite N1. now rewrite (eqb_neq x "nonce").
  Qed.
  Lemma own_item i d cc t : sound k i d -> t <> "iss" -> c_json cc = [] ->
    (exists m, get_item d cc t k = Ok m) \/ exists e, get_item d cc t k = Err (KeyError e).
  Proof.
    intros (_ & (a & R) & _) Ht J. rewrite (get_item_rel rnd32 d a cc t k R Hk Ht).
    destruct (A_sess a k) as [s|]; [|right; eauto]. destruct (a_items s t) as [it|]; [|right; eauto].
    left. now apply msg_new_total.
  Qed.
  Lemma own_extend i d args cc t ps orig : sound k i d -> t <> "iss" -> c_json cc = [] ->
    exists a, extend_request_args d args cc t k ps orig = Ok a.
  Proof.
    intros S Ht J. unfold extend_request_args. destruct (own_item i d cc t S Ht J) as [[m ->]|[e ->]]; eauto.
  Qed.
  (** the session as it is in the store, seen through [get_item] *)
  Lemma own_session i d : sound k i d -> exists st, get_state d k = Ok st /\
    forall t, mem_str t state_json_params = true -> t <> "iss" ->
      (dget t st = None /\ get_item d cMessage t k = Err (KeyError t)) \/
      exists it, dget t st = Some (VDict it) /\ get_item d cMessage t k = msg_new cMessage it.
  Proof.
    intros (_ & (a & R) & G). pose proof (get_state_rel rnd32 d a k R Hk) as X.
    destruct (A_sess a k) as [s|]; [|unfold get_iss in G; rewrite X in G; discriminate].
    destruct X as (st & X & _ & _ & Hit). exists st. split; [exact X|]. intros t Ht Hi. unfold get_item. rewrite X, (Hit t Hi).
    destruct (a_items s t) as [it|]; cbn [option_map]; [|left; auto]. right. unfold item_val. rewrite Ht. eauto.
  Qed.
  Lemma own_tokens i d ps : sound k i d -> exists a, multiple_extend_request_args d [] k ps token_items false = Ok a /\
    forall p, get_item d cMessage "refresh_token_response" k = Err (KeyError "refresh_token_response") -> mem_str p ps = true ->
      forall it v, get_item d cMessage "token_response" k = Ok it -> offer false it p = Some v -> dget p a = Some v.
  Proof.
    intros S. destruct (own_session i d S) as (st & E & X).
    assert (L : forall l args, (forall t, In t l -> In t token_items) -> exists a, mult_extend_loop st args ps l false = Ok a).
    { induction l as [|t l IH]; intros args Hl; cbn [mult_extend_loop]; [eauto|].
      assert (T : mem_str t state_json_params = true /\ t <> "iss").
      { destruct (Hl t (or_introl eq_refl)) as [<-|[<-|[<-|[]]]]; split; reflexivity || discriminate. }
      destruct (X t (proj1 T) (proj2 T)) as [[-> _]|(it & -> & _)]; [apply IH; cbn in *; auto|].
      destruct (msg_new_total cMessage it eq_refl) as [m ->]. apply IH; cbn in *; auto. }
    destruct (L token_items [] (fun t H => H)) as [a Ha]. exists a.
    assert (Ha' : multiple_extend_request_args d [] k ps token_items false = Ok a) by (unfold multiple_extend_request_args; now rewrite E).
    split; [exact Ha'|]. intros p R Hp it v Hit Hv.
    pose proof (mult_extend_spec d [] k ps token_items false st a E Ha' p) as G. rewrite Hp in G. rewrite G.
    assert (LO : last_offer false (present st token_items) p = Some v); [|now rewrite LO].
    destruct (X "refresh_token_response" eq_refl ltac:(discriminate)) as [[R1 _]|(x & _ & R2)].
    2:{ destruct (msg_new_total cMessage x eq_refl) as [m Hm]. congruence. }
    destruct (X "token_response" eq_refl ltac:(discriminate)) as [[_ T1]|(x & T1 & T2)]; [congruence|].
    cbn [present token_items]. rewrite R1, T1. rewrite Hit in T2. rewrite <- T2.
    destruct (dget "auth_response" st) as [[]|]; cbn [last_offer]; try now rewrite Hv.
    destruct (msg_new cMessage d0); cbn [last_offer]; now rewrite Hv.
  Qed.
End Own.

(** ** no call stores a refresh token response *)
Lemma latest_item_never ops k t : (forall o, In o ops -> match o with Store _ _ t' _ => t' <> t | _ => True end) -> latest_item ops k t = None.
Proof.
  induction ops as [|o ops IH]; intros H; [reflexivity|]. cbn [latest_item].
  assert (IH' := IH (fun o' X => H o' (or_intror X))). specialize (H o (or_introl eq_refl)).
  destruct o; cbn in *; try (now rewrite IH'); repeat match goal with |- context [if ?b then _ else _] => destruct b eqn:? end; auto.
  all: exfalso; repeat match goal with X : (_ && _)%bool = true |- _ => apply andb_prop in X; destruct X end;
       repeat match goal with X : (_ =?s _) = true |- _ => apply eqb_true_iff in X end; congruence.
Qed.
Definition stores_other (x : op) : Prop := match x with Store _ _ t' _ => t' <> "refresh_token_response" | _ => True end.
Lemma never_refreshed cl os c0 k i : plain_client cl -> Forall call_ok os -> sdb c0 = [] -> rnd32 k ->
  sound k i (sdb (run_calls cl os c0)) ->
  get_item (sdb (run_calls cl os c0)) cMessage "refresh_token_response" k = Err (KeyError "refresh_token_response").
Proof.
  intros PC Ho E Hk S. destruct (own_session k Hk i _ S) as (st & _ & X).
  destruct (X "refresh_token_response" eq_refl ltac:(discriminate)) as [[_ R]|(it & _ & R)]; [exact R|exfalso].
  destruct (msg_new_total cMessage it eq_refl) as [m Hm]. rewrite Hm in R. clear S X.
  destruct (calls_write cl os PC Ho c0) as (_ & ops & F & W); [rewrite E; apply closed_nil|]. rewrite E in W. rewrite W in R. clear W.
  pose proof (store_observations rnd32 ops rnd32_family) as G. cbv zeta in G. destruct G as [G _].
  { eapply Forall_impl; [|exact F]. cbn; tauto. }
  specialize (G k cMessage "refresh_token_response" Hk ltac:(discriminate)).
  rewrite latest_item_never in G; [destruct G; congruence|]. intros x Hx. apply in_rev in Hx. rewrite Forall_forall in F.
  destruct (F _ Hx) as (_ & o & _ & Hc). change (stores_other x).
  assert (TK : forall v s, token_op c0 v s x -> stores_other x)
    by (intros v s [(? & ? & ->)|(? & ? & ->)]; cbn; [discriminate|exact I]).
  assert (RK : forall v s, refresh_op c0 v s x -> stores_other x)
    by (intros v s H; eapply TK; left; exact H).
  assert (AK : forall v s, authz_op c0 v s x -> stores_other x)
    by (intros v s (? & ? & ->); cbn; discriminate).
  assert (UK : forall s, userinfo_op s x -> stores_other x)
    by (intros s (? & ? & ->); cbn; discriminate).
  destruct o; cbn [call_op] in *; eauto.
  - destruct x as [rnd i' key|? ? ? ?|? ? ?|?]; cbn in *; try tauto. intuition (subst; discriminate).
  - destruct Hc as [(s & _ & [[_ A]|[_ [A|A]]])|A]; eauto.
    destruct A as (? & ? & ? & ? & ? & ? & ? & ? & ? & ? & ? & ? & ? & ? & [(? & ? & [(? & ->)|(? & ->)])|(? & ? & ->)]); cbn; exact I.
  - destruct Hc as (s & _ & _ & A); eauto.
  - destruct Hc as (v & ->). exact I.
  - subst x. exact I.
Qed.

(** ** what the stages leave alone *)
Definition later (k : string) (i : val) (ts : list string) (c c' : ctx) : Prop :=
  c' = set_db (sdb c') c /\ sound k i (sdb c') /\
  (forall cc t, ~ In t ts -> t <> "iss" -> get_item (sdb c') cc t k = get_item (sdb c) cc t k) /\
  (forall n, get_state_by_nonce (sdb c) n = Ok k -> get_state_by_nonce (sdb c') n = Ok k).
Lemma later_trans k i ts us c c1 c2 : later k i ts c c1 -> later k i us c1 c2 -> later k i (ts ++ us) c c2.
Proof.
  intros (A1 & A2 & A3 & A4) (B1 & B2 & B3 & B4). split; [rewrite B1, A1 at 1; reflexivity|]. split; [exact B2|]. split.
  - intros cc t Ht Hi. rewrite B3, A3; auto; intros X; apply Ht, in_or_app; auto.
  - auto.
Qed.
Lemma later_refl k i c : sound k i (sdb c) -> later k i [] c c.
Proof. intros S. split; [now rewrite set_db_same|]. split; [exact S|]. split; auto. Qed.

Section Stages.
  Variables (k iss : string).
  Hypothesis Hk : rnd32 k.
  Let i := VStr iss.
  Let Kne : k <> "" := proj1 rnd32_family k Hk.
  Lemma key_shown : skipped (VStr k) = false.
  Proof. destruct k; [contradiction|reflexivity]. Qed.

  Lemma on_store c cc m t : sound k i (sdb c) -> t <> "iss" ->
    exists c', on_db (store_item (IMsg cc m) t k) c = (Ok tt, c') /\ later k i [t] c c' /\
      forall cc', get_item (sdb c') cc' t k = msg_new cc' (msg_to_dict cc m).
  Proof.
    intros S Ht. destruct (own_store k Hk i (sdb c) cc m t S Ht) as (d' & E & S' & I1 & I2 & N).
    exists (set_db d' c). unfold on_db. rewrite E. split; [reflexivity|]. split; [|exact I1].
    split; [reflexivity|]. split; [exact S'|]. split; [|exact N]. cbn [sdb set_db]. intros cc' t' H' Hi'. apply I2; [|exact Hi']. intros ->. apply H'. now left.
  Qed.
  Lemma on_bind c x v : sound k i (sdb c) -> In x kinds -> x <> "nonce" ->
    exists c', on_db (store_x2state v k x) c = (Ok tt, c') /\ later k i [] c c'.
  Proof.
    intros S Hx Nx. destruct (own_bind k Hk i (sdb c) x v S Hx Nx) as (d' & E & S' & I1 & N).
    exists (set_db d' c). unfold on_db. rewrite E. split; [reflexivity|]. split; [reflexivity|]. split; [exact S'|]. split; [|exact N].
    cbn [sdb set_db]. intros cc' t' _. apply I1.
  Qed.

  (** ** the authorization response *)
  Lemma front_stage W now resp code ar c : sound k i (sdb c) -> code_response k code resp ->
    msg_new cAuthzResponse resp = Ok ar -> verifies W "authorization" ar ar ->
    dget "state" ar = Some (VStr k) /\ dget "code" ar = Some (VStr code) /\ dhas "error" ar = false /\
    exists c', finalize_auth (e_vrf W "authorization") now iss resp c = (Ok ar, c') /\ later k i ["auth_response"] c c' /\
      forall cc, get_item (sdb c') cc "auth_response" k = msg_new cc (msg_to_dict cAuthzResponse ar).
  Proof.
    intros S (U & R1 & R2 & R3 & R4 & R5 & R6) Ea V.
    pose proof (msg_new_get _ _ _ U Ea) as G.
    assert (G1 : dget "state" ar = Some (VStr k)). { rewrite G, R1. now rewrite key_shown. }
    assert (G2 : dget "code" ar = Some (VStr code)). { rewrite G, R2. destruct code; [contradiction|reflexivity]. }
    assert (G3 : dget "error" ar = None) by now rewrite G, R4.
    assert (G4 : dget (verified "id_token") ar = None) by now rewrite G, R5.
    assert (G5 : dget "expires_in" ar = None) by now rewrite G, R6.
    assert (G6 : dhas "error" ar = false) by (unfold dhas; now rewrite G3).
    split; [exact G1|]. split; [exact G2|]. split; [exact G6|].
    destruct (on_store c cAuthzResponse ar "auth_response" S ltac:(discriminate)) as (c1 & E1 & L1 & _).
    destruct (on_store c1 cAuthzResponse ar "auth_response" (proj1 (proj2 L1)) ltac:(discriminate)) as (c2 & E2 & L2 & I2).
    exists c2. split; [|split].
    - unfold finalize_auth. rewrite Ea. rewrite bind_run.
      assert (P : parse_deserialised (e_vrf W "authorization") oidc_authz_post_parse ar "" c = (Ok ar, c)).
      { unfold parse_deserialised. rewrite bind_run. unfold is_error_message. rewrite G6, V. unfold oidc_authz_post_parse. rewrite bind_run.
        assert (P1 : oauth2_authz_post_parse ar "" c = (Ok ar, c)) by (unfold oauth2_authz_post_parse; destruct (dhas "scope" ar); reflexivity).
        rewrite P1, G4. cbn [ret]. destruct ar; [discriminate|reflexivity]. }
      rewrite P. unfold is_error_message. rewrite G6, G1.
      destruct S as (_ & _ & S). rewrite S. subst i. cbn [val_eqb]. rewrite eqb_refl. rewrite bind_run.
      unfold authz_update_service_context, add_expires_at. rewrite G5. rewrite bind_run, E1. cbn [ret]. rewrite bind_run, E2. reflexivity.
    - change ["auth_response"] with (["auth_response"] ++ @nil string). 
      destruct (later_trans _ _ _ _ _ _ _ L1 L2) as (T1 & T2 & T3 & T4). split; [exact T1|]. split; [exact T2|]. split; [|exact T4].
      intros cc t Ht Hi. apply T3; [|exact Hi]. cbn in *. tauto.
    - exact I2.
  Qed.
End Stages.
