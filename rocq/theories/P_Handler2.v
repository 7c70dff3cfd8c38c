(** Proofs for T_Handler.v *)
From Verif Require Import Base BaseP Json JsonP Msg M_State S_State P_State M_Ctx M_Codec M_Authz M_ClientAuth
  M_Service M_Token M_Handler S_Service S_Token S_Handler S_Flow S_Trace P_Ctx P_Authz P_Codec P_ClientAuth P_Service P_Wire P_Token
  P_Handler P_Flow P_Token2 P_Trace P_Flow2.

(** ** where index entries and sessions come from *)
Lemma bind_provenance K ops x v k : key_family K -> Forall (op_ok K) ops -> In x kinds ->
  get_state_by_x (snd (crun [] ops)) v x = Ok k -> In (Bind x v k) ops.
Proof.
  intros HK Ho Hx H. destruct (run_rel K HK ops [] ainit (rel_init K) Ho) as [_ R].
  rewrite (get_by_x_rel K _ _ x v R Hx) in H.
  - destruct (A_idx (snd (arun ainit ops)) x v) eqn:E; [|discriminate]. injection H as <-. now apply idx_bound.
  - intros s Hs. apply idx_bound in Hs. rewrite Forall_forall in Ho. apply Ho in Hs. destruct HK as [X _], Hs as [Hs _]. now apply X.
Qed.
Lemma latest_iss_create h k i : latest_iss h k = Some i -> exists rnd key, In (Create rnd i key) h /\ created_key rnd key = k.
Proof.
  induction h as [|o h IH]; [discriminate|]. cbn [latest_iss]. destruct o.
  - destruct (created_key rnd key =?s k) eqn:E.
    + destruct (iss =?s ""); [discriminate|]. intros [= <-]. apply String.eqb_eq in E. exists rnd, key. split; [now left|assumption].
    + intros H. destruct (IH H) as (r & q & A & B). exists r, q. split; [now right|assumption].
  - intros H. destruct (IH H) as (r & q & A & B). exists r, q. split; [now right|assumption].
  - intros H. destruct (IH H) as (r & q & A & B). exists r, q. split; [now right|assumption].
  - destruct (k0 =?s k); [discriminate|]. intros H. destruct (IH H) as (r & q & A & B). exists r, q. split; [now right|assumption].
Qed.
Lemma calls_ops cl os c : plain_client cl -> Forall call_ok os -> sdb c = [] ->
  exists ops, Forall (op_ok rnd32) ops /\ (forall x, In x ops -> exists o, In o os /\ call_op cl c o x) /\
    sdb (run_calls cl os c) = snd (crun [] ops).
Proof.
  intros PC OK E. assert (CL : closed rnd32 (sdb c)) by (rewrite E; apply closed_nil).
  destruct (calls_write cl os PC OK c CL) as (_ & ops & F & D). rewrite E in D. exists ops. split; [|split; [|exact D]].
  - eapply Forall_impl; [|exact F]. cbn; tauto.
  - rewrite Forall_forall in F. intros x Hx. now apply F.
Qed.
Lemma nonce_provenance cl os c n k : plain_client cl -> Forall call_ok os -> sdb c = [] ->
  get_state_by_nonce (sdb (run_calls cl os c)) n = Ok k -> exists W reqs beh, In (CInit W reqs beh) os /\ e_state W = k.
Proof.
  intros PC OK E H. destruct (calls_ops cl os c PC OK E) as (ops & O1 & O2 & O3). rewrite O3 in H.
  apply (bind_provenance rnd32) in H; [|apply rnd32_family|assumption|apply in_nonce].
  destruct (O2 _ H) as (o & I & C). destruct o; cbn in C.
  - exists W, reqs, beh. split; [assumption|]. now destruct C.
  - exfalso. destruct C as [(s & _ & [(? & ? & ? & D)|(? & [[(? & ? & D)|(? & ? & D)]|(? & ? & D)])])|(? & ? & ? & ? & ? & ? & ? & ? & ? & ? & ? & ? & ? & ? & [(? & ? & [(? & D)|(? & D)])|(? & ? & D)])]; discriminate.
  - destruct C as (s & _ & ? & ? & ? & D). discriminate.
  - destruct C as [(? & ? & D)|(? & ? & D)]; discriminate.
  - destruct C as (? & ? & D); discriminate.
  - destruct C as (? & ? & D). discriminate.
  - destruct C as (? & D). discriminate.
  - discriminate.
Qed.
Lemma logout_provenance cl os c ls k : plain_client cl -> Forall call_ok os -> sdb c = [] ->
  get_state_by_logout_state (sdb (run_calls cl os c)) ls = Ok k -> exists W uri, In (CLogout W k uri) os.
Proof.
  intros PC OK E H. destruct (calls_ops cl os c PC OK E) as (ops & O1 & O2 & O3). rewrite O3 in H.
  apply (bind_provenance rnd32) in H; [|apply rnd32_family|assumption|apply in_logout].
  destruct (O2 _ H) as (o & I & C). destruct o; cbn in C.
  - destruct C as (_ & D & _). discriminate.
  - exfalso. destruct C as [(s & _ & [(? & ? & ? & D)|(? & [[(? & ? & D)|(? & ? & D)]|(? & ? & D)])])|(? & ? & ? & ? & ? & ? & ? & ? & ? & ? & ? & ? & ? & ? & [(? & ? & [(? & D)|(? & D)])|(? & ? & D)])]; discriminate.
  - destruct C as (s & _ & ? & ? & ? & D). discriminate.
  - destruct C as [(? & ? & D)|(? & ? & D)]; discriminate.
  - destruct C as (? & ? & D); discriminate.
  - destruct C as (? & ? & D). discriminate.
  - destruct C as (v & D). injection D as <- <-. eauto.
  - discriminate.
Qed.
Lemma session_provenance cl os c k i : plain_client cl -> Forall call_ok os -> sdb c = [] ->
  get_iss (sdb (run_calls cl os c)) k = Ok i ->
  i = VStr (issuer c) /\ exists W reqs beh, In (CInit W reqs beh) os /\ e_state W = k.
Proof.
  intros PC OK E H. pose proof (closed_reach cl os c PC OK E) as CL.
  assert (K : rnd32 k) by (eapply closed_iss; [apply rnd32_no_dict|exact CL|exact H]).
  destruct (calls_ops cl os c PC OK E) as (ops & O1 & O2 & O3). rewrite O3 in H.
  destruct (store_observations rnd32 ops rnd32_family O1) as [_ S]. specialize (S k K).
  destruct (latest_iss (rev ops) k) as [j|] eqn:L; [|destruct S as [e S]; rewrite H in S; discriminate].
  destruct (latest_iss_create _ _ _ L) as (rnd & key & A & B). apply in_rev in A.
  destruct (O2 _ A) as (o & I & C). destruct o; cbn in C.
  - destruct C as [C1 C2]. rewrite H in S. split; [congruence|]. exists W, reqs, beh. split; [assumption|]. congruence.
  - exfalso. destruct C as [(s & _ & [(? & ? & ? & D)|(? & [[(? & ? & D)|(? & ? & D)]|(? & ? & D)])])|(? & ? & ? & ? & ? & ? & ? & ? & ? & ? & ? & ? & ? & ? & [(? & ? & [(? & D)|(? & D)])|(? & ? & D)])]; discriminate.
  - destruct C as (s & _ & ? & ? & ? & D). discriminate.
  - destruct C as [(? & ? & D)|(? & ? & D)]; discriminate.
  - destruct C as (? & ? & D); discriminate.
  - destruct C as (? & ? & D). discriminate.
  - destruct C as (? & D). discriminate.
  - discriminate.
Qed.
Lemma accepted_was_begun cl os c vrf now iss response m c' : plain_client cl -> Forall call_ok os -> sdb c = [] ->
  finalize_auth vrf now iss response (run_calls cl os c) = (Ok m, c') -> is_error_message m = false ->
  exists W reqs beh, In (CInit W reqs beh) os /\ dget "state" m = Some (VStr (e_state W)).
Proof.
  intros PC OK E H NE. pose proof (finalize_auth_spec _ _ _ _ _ _ _ H) as S. cbn in S.
  destruct S as [[S _]|(_ & s & S1 & S2 & _)]; [congruence|].
  destruct (session_provenance cl os c s _ PC OK E S2) as (_ & W & reqs & beh & I & <-). eauto.
Qed.

(** ** computations that only read *)
Definition pure {A} (m : M A) : Prop := forall c, snd (m c) = c.
Lemma pure_bind {A B} (m : M A) (f : A -> M B) : pure m -> (forall a, pure (f a)) -> pure (bind m f).
Proof. intros H1 H2 c. unfold bind. pose proof (H1 c) as E. destruct (m c) as [[a|e] c1]; cbn in *; subst; [apply H2|reflexivity]. Qed.
Lemma pure_run_pre ms kw : forall a p, (forall m, In m ms -> forall a p, pure (m a p kw)) -> pure (run_pre ms a p kw).
Proof.
  induction ms as [|m ms IH]; intros a p H; [intros c; reflexivity|]. cbn [run_pre]. apply pure_bind; [apply H; now left|].
  intros x. apply IH. intros. apply H. now right.
Qed.
Lemma pure_run_post ms kw : forall r, (forall m, In m ms -> forall r, pure (m r kw)) -> pure (run_post ms r kw).
Proof.
  induction ms as [|m ms IH]; intros r H; [intros c; reflexivity|]. cbn [run_post]. apply pure_bind; [apply H; now left|].
  intros x. apply IH. intros. apply H. now right.
Qed.
Lemma pure_construct s args kw : (forall m, In m (s_pre s) -> forall a p kw, pure (m a p kw)) ->
  (forall m, In m (s_post s) -> forall r kw, pure (m r kw)) -> pure (construct s args kw).
Proof.
  intros H1 H2. unfold construct. apply pure_bind; [apply pure_run_pre; auto|]. intros [a1 post].
  apply pure_bind; [intros c; reflexivity|]. intros a3. apply pure_bind; [intros c; reflexivity|]. intros req. apply pure_run_post; auto.
Qed.
Lemma pure_grp E s args m b au kw : s_extra s = [] -> pure (construct s args kw) -> pure (get_request_parameters E s args m b au kw).
Proof.
  intros X H. unfold get_request_parameters. apply pure_bind; [intros c; reflexivity|]. intros a. apply pure_bind; [exact H|].
  intros req. apply pure_bind; [intros c; reflexivity|]. intros iss. apply pure_bind.
  { unfold get_headers. apply pure_bind; [intros c; reflexivity|]. intros mt. apply pure_bind; [intros c; reflexivity|]. intros hr.
    apply pure_bind; [|intros; intros c; reflexivity]. rewrite X. intros c; reflexivity. }
  intros [h r]. apply pure_bind. { destruct (dget "endpoint" kw); intros c; reflexivity. }
  intros ep. destruct ep; try (intros c; reflexivity). apply pure_bind; [intros c; reflexivity|]. intros u.
  destruct (_ =?s "POST"); [|intros c; reflexivity]. apply pure_bind; [intros c; reflexivity|]. intros; intros c; reflexivity.
Qed.

(** ** C11 at the token endpoint *)
Lemma pure_token_grp W cl args au kw : pure (get_request_parameters (e_authn W) (token_svc W cl) args "" "" au kw).
Proof.
  destruct (token_svc_fields W cl) as (_ & _ & X & _). destruct (is_token_svc W cl) as (S1 & S2 & _).
  generalize dependent (token_svc W cl). intros s X S1 S2. apply pure_grp; [exact X|]. apply pure_construct.
  - rewrite S1. intros m [<-|Hm] a p kw'; [intros c; reflexivity|]. destruct (cl_pkce cl); [|easy]. destruct Hm as [<-|[]]. intros c; reflexivity.
  - rewrite S2. intros m Hm r kw'. destruct (cl_pkce cl); [|easy]. destruct Hm as [<-|[]]. intros c; reflexivity.
Qed.
Lemma get_tokens_changes W cl st c r c' : get_tokens W cl st c = (r, c') ->
  (c' = c /\ forall m, r <> Ok (RMsg m)) \/
  exists raw v m0, e_vrf W "accesstoken" c m0 = Ok v /\ (raw = v \/ exists z, raw = dset "status_code" z v) /\
    snd (oidc_token_update (e_now W) raw st c) = c' /\
    (forall m, r = Ok (RMsg m) -> fst (oidc_token_update (e_now W) raw st c) = Ok m).
Proof.
  intros H. destruct (get_tokens_inv _ _ _ _ _ _ H) as [(e & -> & ->)|(ar & rq & code & ru & am & A1 & A2 & A3 & A4 & A5 & A6 & r1 & A7 & A8)].
  { left. split; [reflexivity|discriminate]. }
  apply do_request_inv in A7. destruct A7 as [(e & B1 & B2)|(i & c2 & B1 & B2)].
  { subst r1 r. left. split; [|discriminate]. pose proof (pure_token_grp W cl (tok_args c st code ru) am [("state", VStr st)] c) as P.
    rewrite B1 in P. exact P. }
  pose proof (pure_token_grp W cl (tok_args c st code ru) am [("state", VStr st)] c) as P. rewrite B1 in P. cbn in P. subst c2.
  destruct (token_svc_fields W cl) as (T1 & T2 & T3 & _ & _ & TN & TP & TR & _ & TU & _ & TV).
  destruct (service_request_spec _ _ _ _ _ _ _ _ _ _ _ _ (token_reads_only W cl) B2) as [[-> B3]|(resp & raw & C1 & C2 & C3 & r0 & C4 & C5)].
  - left. split; [reflexivity|]. intros m ->. destruct r1 as [[x|x|x]|]; try discriminate.
    + cbn [is_error_response has_error] in A8. rewrite B3 in A8. discriminate.
    + destruct (is_error_response (RText x)); discriminate.
  - right. rewrite TU in C4. cbn in C4. unfold accepted in C3. rewrite TP, TV in C3. unfold pass, ret in C3.
    assert (V : exists v m0, e_vrf W "accesstoken" c m0 = Ok v /\ (raw = v \/ exists z, raw = dset "status_code" z v)).
    { destruct C3 as [[_ (m0 & v & s & D1 & D2 & D3)]|[_ (m1 & (m0 & v & s & D1 & D2 & D3) & D4)]].
      - injection D3 as <-. eauto.
      - injection D3 as <-. eauto 6. }
    destruct V as (v & m0 & V1 & V2). exists raw, v, m0. split; [exact V1|]. split; [exact V2|]. rewrite C4. split; [reflexivity|].
    intros m ->. subst r1. destruct r0 as [x|]; [|discriminate]. unfold is_error_response in A8.
    destruct (has_error (RMsg x)); [discriminate|]. cbn. congruence.
Qed.
Lemma token_nonce_rejected W cl st c r c' :
  (forall m0 v, e_vrf W "accesstoken" c m0 = Ok v -> exists idt, dget (verified "id_token") v = Some (VDict idt) /\
     forall n, dget "nonce" idt = Some (VStr n) -> get_state_by_nonce (sdb c) n <> Ok st) ->
  get_tokens W cl st c = (r, c') -> c' = c /\ forall m, r <> Ok (RMsg m).
Proof.
  intros HV H. destruct (get_tokens_changes _ _ _ _ _ _ H) as [G|(raw & v & m0 & V1 & V2 & V3 & V4)]; [exact G|].
  destruct (HV _ _ V1) as (idt & I1 & I2).
  assert (I1' : dget (verified "id_token") raw = Some (VDict idt)).
  { destruct V2 as [->|[z ->]]; [assumption|]. now rewrite dget_dset_neq by discriminate. }
  pose proof (token_update_rejects (e_now W) raw st c idt I1' I2) as R. rewrite R in V3, V4. split; [now rewrite <- V3|].
  intros m E. specialize (V4 m E). discriminate.
Qed.
Lemma token_accepted W cl st c m c' : rnd32 st -> get_tokens W cl st c = (Ok (RMsg m), c') ->
  (forall cc, get_item (sdb c') cc "token_response" st = msg_new cc (msg_to_dict cTokenResponse m)) /\
  (forall v, dget "expires_in" m = Some v -> exists n, to_int v = Ok n /\ dget "__expires_at" m = Some (VInt (e_now W + n))) /\
  (forall idt, dget (verified "id_token") m = Some (VDict idt) ->
     exists n sub, dget "nonce" idt = Some (VStr n) /\ get_state_by_nonce (sdb c) n = Ok st /\
       dget "sub" idt = Some (VStr sub) /\ get_state_by_sub (sdb c') sub = Ok st) /\
  (forall k, rnd32 k -> k <> st -> get_state (sdb c') k = get_state (sdb c) k).
Proof.
  intros K H. destruct (get_tokens_accepts rnd32 _ _ _ _ _ _ rnd32_family K H) as (resp & raw & u & mt & b & h & _ & _ & _ & U).
  destruct (token_update_accepts rnd32 _ _ _ _ _ _ rnd32_family K U) as (A1 & A2 & A3 & A4 & A5 & A6).
  split; [exact A3|]. apply expires_spec in A1. split; [|split].
  - intros v Hv. destruct (dget "expires_in" raw) as [w|] eqn:E.
    + destruct A1 as (n & N1 & ->). rewrite dget_dset_neq in Hv by discriminate. rewrite E in Hv. injection Hv as <-. exists n. split; [assumption|]. apply dget_dset_eq.
    + subst m. congruence.
  - intros idt Hi. apply A4. destruct (dget "expires_in" raw); [|now subst]. destruct A1 as (n & _ & ->). now rewrite dget_dset_neq in Hi by discriminate.
  - intros k K1 K2. unfold get_state. now rewrite A6.
Qed.
