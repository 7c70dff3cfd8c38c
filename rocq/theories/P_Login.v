(** Proofs for T_Login.v: what a completed login is bound to. *)
From Verif Require Import Base BaseP Json JsonP Msg M_State S_State P_State M_Ctx M_Codec M_Authz M_ClientAuth
  M_Service M_Token M_Handler S_Service S_Token S_Handler S_Flow S_Trace S_Login P_Ctx P_Authz P_Codec P_ClientAuth P_Service P_Wire P_Token
  P_Handler P_Flow P_Token2 P_Trace P_Flow2 P_Handler2 P_Handler4 P_Verify.

Lemma idx_bound_from ops : forall a x v s, A_idx (snd (arun a ops)) x v = Some s -> In (Bind x v s) ops \/ A_idx a x v = Some s.
Proof.
  induction ops as [|o ops IH] using rev_ind; intros a0 x v s; [now right|].
  rewrite arun_snoc, in_app_iff. specialize (IH a0). set (a := snd (arun a0 ops)) in *.
  destruct o as [rnd iss key|c m t' k'|x' v' k'|k']; cbn [astep snd A_idx].
  - intros H. apply IH in H. tauto.
  - intros H. apply IH in H. tauto.
  - unfold upd2. destruct (String.eqb_spec x' x), (String.eqb_spec v' v); cbn [andb]; try (intros H; apply IH in H; tauto).
    intros [= <-]. subst. left. right. simpl. auto.
  - destruct (A_sess a k'); [|intros H; apply IH in H; tauto]. destruct (A_refs a k') as [|r0 rs]; [intros H; apply IH in H; tauto|].
    destruct (drop_refs (r0 :: rs) (A_idx a)) as [o' i] eqn:E. cbn [snd A_idx]. intros H.
    assert (D : A_idx a x v = Some s) by (apply (drop_refs_idx (r0 :: rs)); now rewrite E). apply IH in D. tauto.
Qed.
Lemma arun_app a ops1 : forall ops2, snd (arun a (ops1 ++ ops2)) = snd (arun (snd (arun a ops1)) ops2).
Proof.
  revert a. induction ops1 as [|o r IH]; intros a ops2; [reflexivity|]. cbn [arun app]. destruct (astep a o) as [x a1]. specialize (IH a1 ops2).
  destruct (arun a1 (r ++ ops2)), (arun a1 r). cbn [snd] in *. exact IH.
Qed.
Lemma bound_later K opsA opsB x v k : key_family K -> Forall (op_ok K) (opsA ++ opsB) -> In x kinds ->
  get_state_by_x (snd (crun [] (opsA ++ opsB))) v x = Ok k ->
  In (Bind x v k) opsB \/ get_state_by_x (snd (crun [] opsA)) v x = Ok k.
Proof.
  intros HK Ho Hx H. assert (HoA : Forall (op_ok K) opsA) by (apply Forall_app in Ho; tauto).
  destruct (run_rel K HK (opsA ++ opsB) [] ainit (rel_init K) Ho) as [_ R].
  destruct (run_rel K HK opsA [] ainit (rel_init K) HoA) as [_ RA].
  assert (NE : forall ops s, Forall (op_ok K) ops -> A_idx (snd (arun ainit ops)) x v = Some s -> s <> "").
  { intros ops s Hops Hs. apply idx_bound in Hs. rewrite Forall_forall in Hops. apply Hops in Hs. destruct HK as [X _], Hs as [Hs _]. now apply X. }
  rewrite (get_by_x_rel K _ _ x v R Hx) in H by (intros s; now apply NE).
  destruct (A_idx (snd (arun ainit (opsA ++ opsB))) x v) as [s|] eqn:E; [|discriminate]. injection H as ->.
  rewrite arun_app in E. destruct (idx_bound_from _ _ _ _ _ E) as [B|B]; [now left|right].
  rewrite (get_by_x_rel K _ _ x v RA Hx) by (intros s; now apply NE). now rewrite B.
Qed.

(** the nonces that lead to a session are those of its one authorization request *)
Lemma nonce_of_begin cl c0 o x k : call_op cl c0 o (Bind "nonce" x k) -> exists W reqs beh, o = CInit W reqs beh /\ e_state W = k.
Proof.
  intros C. destruct o; cbn in C.
  - exists W, reqs, beh. split; [reflexivity|]. now destruct C.
  - exfalso. destruct C as [(s & _ & [(? & ? & ? & D)|(? & [[(? & ? & D)|(? & ? & D)]|(? & ? & D)])])|(? & ? & ? & ? & ? & ? & ? & ? & ? & ? & ? & ? & ? & ? & [(? & ? & [(? & D)|(? & D)])|(? & ? & D)])]; discriminate.
  - destruct C as (s & _ & ? & ? & ? & D). discriminate.
  - destruct C as [(? & ? & D)|(? & ? & D)]; discriminate.
  - destruct C as (? & ? & D); discriminate.
  - destruct C as (? & ? & D). discriminate.
  - destruct C as (? & D). discriminate.
  - discriminate.
Qed.
Lemma only_nonce cl os0 os1 c0 W0 reqs beh u k c1 x n : plain_client cl -> sdb c0 = [] -> Forall call_ok os0 -> Forall call_ok os1 ->
  rnd32 (e_state W0) -> (forall m v, e_hash W0 m v <> "") -> uniq reqs -> config_uniq c0 ->
  chosen c0 reqs "nonce" (Some (VStr (e_nonce W0))) = Some (VStr n) -> n <> "" ->
  init_authorization W0 cl reqs beh (run_calls cl os0 c0) = (Ok (u, k), c1) ->
  not_begun k os0 -> (forall o, In o os1 -> leaves k o) ->
  get_state_by_nonce (sdb (run_calls cl os1 c1)) x = Ok k -> x = n \/ x = e_nonce W0.
Proof.
  intros PC E OK0 OK1 K HH U CU HN Ne H BO LV G.
  pose proof (closed_reach cl os0 c0 PC OK0 E) as CL0. assert (CL1 : closed rnd32 (sdb c1)) by (eapply init_closed; eauto).
  destruct (calls_ops cl os0 c0 PC OK0 E) as (opsA & A1 & A2 & A3).
  destruct (call_writes cl (CInit W0 reqs beh) (run_calls cl os0 c0) PC K CL0) as (_ & opsI & I1 & I2).
  cbn [run_call] in I2. rewrite H in I2. cbn [snd] in I2.
  destruct (calls_write cl os1 PC OK1 c1 CL1) as (_ & opsB & B1 & B2).
  assert (D1 : sdb c1 = snd (crun [] (opsA ++ opsI))) by now rewrite crun_app, <- A3.
  rewrite D1, <- crun_app in B2. unfold get_state_by_nonce in G. rewrite B2 in G.
  assert (FI : Forall (op_ok rnd32) opsI) by (eapply Forall_impl; [|exact I1]; cbn; tauto).
  assert (FB : Forall (op_ok rnd32) opsB) by (eapply Forall_impl; [|exact B1]; cbn; tauto).
  apply (bound_later rnd32) in G; [|apply rnd32_family|rewrite <- app_assoc; repeat (apply Forall_app; split); assumption|apply in_nonce].
  destruct G as [G|G].
  { exfalso. rewrite Forall_forall in B1. destruct (B1 _ G) as (_ & o & Ho & Hc). apply nonce_of_begin in Hc.
    destruct Hc as (W & r & b & -> & Hk). specialize (LV _ Ho). cbn in LV. congruence. }
  rewrite <- D1 in G.
  destruct (init_spec rnd32 _ _ _ _ _ _ _ _ rnd32_family K (proj1 PC) HH H)
    as (-> & args & req & ep & A & _ & _ & _ & _ & _ & _ & _ & B8 & _ & _ & _ & _ & _ & C2 & _).
  destruct (String.eqb_spec x (e_nonce W0)) as [->|N1]; [now right|]. destruct (String.eqb_spec x n) as [->|N2]; [now left|]. exfalso.
  assert (HK0 : run_calls cl os0 c0 = set_db (sdb (run_calls cl os0 c0)) c0) by (apply history_keeps; auto; rewrite E; apply closed_nil).
  assert (HR : dget "nonce" req = Some (VStr n)).
  { apply B8; [|destruct n; [easy|reflexivity]]. rewrite <- HN. rewrite HK0 in A.
    exact (chosen_args _ (set_db _ c0) _ _ "nonce" (Some (VStr (e_nonce W0))) A U CU ltac:(cbn; auto)). }
  rewrite C2 in G; [|apply in_nonce|intros _; split; congruence].
  destruct (nonce_provenance cl os0 c0 x (e_state W0) PC OK0 E G) as (W & r & b & I & Q). now apply (BO _ _ _ I).
Qed.

Lemma tokens_nonce W cl resp st collect c t c' claims : get_access_and_id_token W cl resp st collect c = (Ok t, c') -> rnd32 st ->
  t_id t = VDict claims ->
  dget (verified "id_token") resp = Some (t_id t) \/
  exists n, dget "nonce" claims = Some (VStr n) /\ get_state_by_nonce (sdb c) n = Ok st.
Proof.
  intros H K Ht.
  assert (EP : forall t0 c0, tokens_from_endpoint W cl st c = (Ok t0, c0) -> t_id t0 = VDict claims ->
     exists n, dget "nonce" claims = Some (VStr n) /\ get_state_by_nonce (sdb c) n = Ok st).
  { intros t0 c2 E I. unfold tokens_from_endpoint, bind in E. destruct (get_tokens W cl st c) as [[r|] c1] eqn:Eg; [|discriminate]. unfold lift in E.
    destruct (dict_get "access_token" (msg_of r)) as [a|]; [|discriminate]. injection E as <- <-. cbn [t_id] in I.
    destruct r as [m| |]; [|discriminate|discriminate]. cbn [msg_of] in I.
    destruct (token_accepted W cl st c m c1 K Eg) as (_ & _ & T & _).
    destruct (dget (verified "id_token") m) as [w|] eqn:Ew; [|discriminate]. cbn in I. subst w.
    destruct (T _ eq_refl) as (n & sub & T1 & T2 & _). eauto. }
  unfold get_access_and_id_token, bind, read_db, lift in H. destruct (get_item _ _ _ _) as [rq|]; [|discriminate].
  destruct (dget "response_type" rq) as [[| | | |rt|]|]; try discriminate.
  assert (A : forall b x, (if b : bool then dict_get (verified "id_token") resp else Ok VNone) = Ok x -> x = VNone \/ dget (verified "id_token") resp = Some x).
  { intros [] x; [|intros [= <-]; now left]. unfold dict_get. destruct (dget (verified "id_token") resp); [intros [= <-]; now right|discriminate]. }
  destruct (if one_of rt _ then dict_get (verified "id_token") resp else Ok VNone) as [i|] eqn:Ei; [|discriminate]. apply A in Ei.
  destruct (one_of rt _); [|destruct (one_of rt _)].
  - destruct (dict_get "access_token" resp) as [a|]; [|discriminate]. destruct collect.
    + right. eauto.
    + injection H as <- _. cbn [t_id] in *. destruct Ei; [congruence|tauto].
  - right. eauto.
  - injection H as <- _. cbn [t_id] in *. destruct Ei; [congruence|tauto].
Qed.
Lemma finalize_state W cl iss resp collect c info st tok idt ss c' : 
  finalize W cl iss resp collect c = (Ok (FOk info st tok idt ss), c') ->
  exists ar c1 k t c2, finalize_auth (e_vrf W "authorization") (e_now W) iss resp c = (Ok ar, c1) /\ is_error_message ar = false /\
    dget "state" ar = Some (VStr k) /\ st = VStr k /\ get_access_and_id_token W cl ar k collect c1 = (Ok t, c2) /\ t_id t = idt /\ t_access t = tok.
Proof.
  unfold finalize. intros H. apply bind_ok in H. destruct H as (ar & c1 & E1 & H). destruct (is_error_message ar) eqn:Ee.
  { apply bind_ok in H. destruct H as (? & ? & _ & H). apply bind_ok in H. destruct H as (? & ? & _ & H). discriminate. }
  destruct (dget "state" ar) as [[| | |k| |]|] eqn:Es; try discriminate. apply bind_ok in H. destruct H as (t & c2 & E2 & H).
  apply bind_ok in H. destruct H as (inf & c3 & _ & H). apply bind_ok in H. destruct H as ([] & c4 & _ & H). injection H as <- <- <- <- _ _.
  exists ar, c1, k, t, c2. auto 10.
Qed.
Lemma run_calls_snoc cl os o c : run_calls cl (os ++ [o]) c = run_call cl o (run_calls cl os c).
Proof. unfold run_calls. now rewrite fold_left_app. Qed.

Lemma login_nonce cl os0 os1 c0 W0 W reqs beh u k c1 n iss resp collect info tok claims ss c' :
  plain_client cl -> sdb c0 = [] -> Forall call_ok os0 -> Forall call_ok os1 ->
  rnd32 (e_state W0) -> (forall m v, e_hash W0 m v <> "") -> uniq reqs -> config_uniq c0 ->
  chosen c0 reqs "nonce" (Some (VStr (e_nonce W0))) = Some (VStr n) -> n <> "" ->
  init_authorization W0 cl reqs beh (run_calls cl os0 c0) = (Ok (u, k), c1) ->
  not_begun k os0 -> (forall o, In o os1 -> leaves k o) ->
  finalize W cl iss resp collect (run_calls cl os1 c1) = (Ok (FOk info (VStr k) tok (VDict claims) ss), c') -> claims <> [] ->
  exists x, dget "nonce" claims = Some (VStr x) /\ (x = n \/ x = e_nonce W0).
Proof.
  intros PC E OK0 OK1 K HH U CU HN Ne H BO LV F Cne.
  pose proof (closed_reach cl os0 c0 PC OK0 E) as CL0. assert (CL1 : closed rnd32 (sdb c1)) by (eapply init_closed; eauto).
  destruct (finalize_state _ _ _ _ _ _ _ _ _ _ _ _ F) as (ar & c2 & k' & t & c3 & F1 & F2 & F3 & F4 & F5 & F6 & F7). injection F4 as <-.
  assert (Ek : k = e_state W0) by (destruct (init_spec rnd32 _ _ _ _ _ _ _ _ rnd32_family K (proj1 PC) HH H) as (? & _); assumption).
  assert (Kk : rnd32 k) by now subst k.
  destruct (tokens_nonce _ _ _ _ _ _ _ _ _ F5 Kk F6) as [I|(x & X1 & X2)].
  - assert (HK0 : run_calls cl os0 c0 = set_db (sdb (run_calls cl os0 c0)) c0) by (apply history_keeps; auto; rewrite E; apply closed_nil).
    assert (CU' : config_uniq (run_calls cl os0 c0)) by (rewrite HK0; exact CU).
    assert (HN' : chosen (run_calls cl os0 c0) reqs "nonce" (Some (VStr (e_nonce W0))) = Some (VStr n)) by (rewrite HK0; exact HN).
    destruct (init_spec rnd32 _ _ _ _ _ _ _ _ rnd32_family K (proj1 PC) HH H)
      as (_ & args & req & ep & A & _ & _ & B3 & _ & B5 & _ & _ & B8 & _).
    assert (HR : dget "nonce" req = Some (VStr n)).
    { apply B8; [|destruct n; [easy|reflexivity]]. rewrite <- HN'. eapply chosen_args; eauto. }
    destruct (msg_new_total cOAuth2AuthzRequest (msg_to_dict cAuthzRequest req) eq_refl) as [rq Hq].
    assert (SS : exists s, get_state (sdb c1) k = Ok s) by (eapply get_item_state; rewrite B5; exact Hq).
    assert (Q1 : get_item (sdb (run_calls cl os1 c1)) cOAuth2AuthzRequest "auth_request" k = Ok rq).
    { rewrite calls_keep; auto; [|cbn; intuition discriminate]. now rewrite B5. }
    assert (RN : dget "nonce" rq = Some (VStr n)) by (eapply stored_param; eauto; reflexivity).
    exists n. split; [|now left].
    unfold finalize_auth in F1. destruct (msg_new cAuthzResponse resp) as [r0|]; [|discriminate]. unfold bind at 1 in F1.
    destruct (parse_deserialised (e_vrf W "authorization") oidc_authz_post_parse r0 "" (run_calls cl os1 c1)) as [[m1|] c1'] eqn:EP; [|discriminate].
    pose proof (parse_deserialised_pure _ _ _ _ _ _ _ oidc_post_parse_pure EP) as P. subst c1'.
    destruct (is_error_message m1) eqn:Ee; [injection F1 as <- <-; congruence|].
    destruct (dget "state" m1) as [[| | |s| |]|] eqn:Es; try discriminate.
    destruct (get_iss _ s) as [i|e]; [|destruct e; discriminate]. destruct (val_eqb i (VStr iss)); [|discriminate].
    unfold authz_update_service_context, bind, on_db in F1. destruct (add_expires_at (e_now W) m1) as [m2|] eqn:Ea; [|discriminate].
    destruct (store_item (IMsg cAuthzResponse m2) "auth_response" s _) as [[|] d1]; [|discriminate]. cbn in F1.
    destruct (store_item (IMsg cAuthzResponse m2) "auth_response" s d1) as [[|] d2]; [|discriminate]. injection F1 as <- <-.
    rewrite (add_expires_keys _ _ _ "state" Ea) in F3 by discriminate. rewrite Es in F3. injection F3 as ->.
    rewrite (add_expires_keys _ _ _ (verified "id_token") Ea) in I by discriminate. rewrite F6 in I.
    unfold parse_deserialised, bind in EP. destruct (is_error_message r0) eqn:Er.
    { cbn in EP. destruct r0; [discriminate|]. injection EP as <-. congruence. }
    destruct (e_vrf W "authorization" _ r0) as [v|]; [|discriminate].
    destruct (oidc_authz_post_parse v "" (run_calls cl os1 c1)) as [[m3|] c4] eqn:Ep; [|discriminate].
    assert (m3 = m1) by (destruct m3; [discriminate|]; now injection EP). subst m3.
    destruct (oidc_post_parse_nonce v "" (run_calls cl os1 c1) m1 (VDict claims)) as (s' & rq' & G1 & G2 & G3); [now rewrite Ep|exact I|now destruct claims|].
    rewrite Es in G1. injection G1 as <-. rewrite Q1 in G2. injection G2 as <-.
    destruct (G3 _ RN) as (cl' & Hc & Hn); [destruct n; [easy|reflexivity]|]. now injection Hc as <-.
  - exists x. split; [exact X1|].
    assert (R : c2 = run_calls cl (os1 ++ [CFinalizeAuth W iss resp]) c1) by (rewrite run_calls_snoc; cbn [run_call]; now rewrite F1).
    rewrite R in X2. eapply (only_nonce cl os0 (os1 ++ [CFinalizeAuth W iss resp])); eauto.
    + apply Forall_app. split; [assumption|]. constructor; [exact I|constructor].
    + intros o Ho. apply in_app_or in Ho. destruct Ho as [Ho|[<-|[]]]; [auto|exact I].
Qed.

(** ** the user info of the login *)
Lemma stored_verified cc1 m idt m' : c_json cc1 = [] -> mem_str (verified "id_token") (c_sp cc1) = false -> NoDup (dkeys m) ->
  msg_new cMessage (msg_to_dict cc1 m) = Ok m' -> dget (verified "id_token") m = Some (VDict idt) -> dget (verified "id_token") m' = Some (VDict idt).
Proof.
  intros J S N H Hi. assert (N' : NoDup (dkeys (msg_to_dict cc1 m))) by now rewrite ser_keys.
  rewrite (msg_new_get _ _ _ N' H), ser_get, Hi. unfold ser_param. rewrite J, S. cbn [mem_str existsb snd skipped].
  now apply shown_plain.
Qed.
Lemma get_tokens_uniq W cl st c m c' : (forall name c m v, e_vrf W name c m = Ok v -> uniq v) ->
  get_tokens W cl st c = (Ok (RMsg m), c') -> NoDup (dkeys m).
Proof.
  intros HU H. destruct (get_tokens_changes _ _ _ _ _ _ H) as [[_ X]|(raw & v & m0 & V1 & V2 & V3 & V4)]; [now destruct (X m)|].
  specialize (V4 m eq_refl). apply HU in V1. assert (NR : NoDup (dkeys raw)) by (destruct V2 as [->|[z ->]]; [exact V1|now apply NoDup_dset]).
  destruct (oidc_token_update (e_now W) raw st c) as [x c2] eqn:E. cbn in V4. subst x.
  unfold oidc_token_update in E. apply bind_ok in E. destruct E as ([] & c3 & _ & E).
  unfold store_token_response in E. destruct (add_expires_at (e_now W) raw) as [m2|] eqn:Ea; [|discriminate]. unfold bind, on_db in E.
  destruct (store_item _ _ _ _) as [[|] d]; [|discriminate]. injection E as <- _. unfold add_expires_at in Ea.
  destruct (dget "expires_in" raw); [|injection Ea as <-; assumption]. destruct (to_int v0); [|discriminate]. injection Ea as <-. now apply NoDup_dset.
Qed.
Lemma front_uniq vrf now iss resp c m c' : closed rnd32 (sdb c) -> (forall c m v, vrf c m = Ok v -> uniq v) ->
  finalize_auth vrf now iss resp c = (Ok m, c') -> is_error_message m = false -> NoDup (dkeys m).
Proof.
  intros CL HU H NE. assert (G : good rnd32 c c) by (split; [assumption|now rewrite set_db_same]).
  destruct (w_finalize_auth rnd32 rnd32_family rnd32_no_dict c vrf now iss resp c G _ _ H) as (_ & _ & Q). destruct (Q m eq_refl) as [Q1|(v & (cc & m0 & _ & V) & _ & N)].
  - unfold is_error_message in NE. congruence.
  - apply N. eapply HU. exact V.
Qed.
Lemma login_id_token cl os c0 W iss resp collect ar c1 k t c2 claims : plain_client cl -> sdb c0 = [] -> Forall call_ok os -> rnd32 k ->
  (forall name c m v, e_vrf W name c m = Ok v -> uniq v) ->
  let c := run_calls cl os c0 in
  finalize_auth (e_vrf W "authorization") (e_now W) iss resp c = (Ok ar, c1) -> is_error_message ar = false -> dget "state" ar = Some (VStr k) ->
  get_access_and_id_token W cl ar k collect c1 = (Ok t, c2) -> t_id t = VDict claims -> ~ has_tokens (sdb c) k ->
  closed rnd32 (sdb c2) /\ session_id_token (sdb c2) k = Some (VDict claims).
Proof.
  intros PC E OK K HU c F NE Hs T Hi NT.
  assert (OK1 : Forall call_ok (os ++ [CFinalizeAuth W iss resp])) by (apply Forall_app; split; [assumption|]; repeat constructor).
  assert (OK2 : Forall call_ok ((os ++ [CFinalizeAuth W iss resp]) ++ [CTokens W k])) by (apply Forall_app; split; [assumption|]; repeat constructor; apply K).
  assert (R1 : c1 = run_calls cl (os ++ [CFinalizeAuth W iss resp]) c0) by (rewrite run_calls_snoc; cbn [run_call]; fold c; now rewrite F).
  pose proof (closed_reach cl os c0 PC OK E) as CL. fold c in CL.
  pose proof (closed_reach cl _ c0 PC OK1 E) as CL1. rewrite <- R1 in CL1.
  assert (EP : tokens_from_endpoint W cl k c1 = (Ok t, c2) -> closed rnd32 (sdb c2) /\ session_id_token (sdb c2) k = Some (VDict claims)).
  { intros EE. unfold tokens_from_endpoint, bind in EE. destruct (get_tokens W cl k c1) as [[r|] c3] eqn:Eg; [|discriminate]. unfold lift in EE.
    destruct (dict_get "access_token" (msg_of r)) as [a|]; [|discriminate]. injection EE as <- <-. cbn [t_id] in Hi.
    destruct r as [m| |]; [|discriminate|discriminate]. cbn [msg_of] in Hi.
    assert (R2 : c3 = run_calls cl ((os ++ [CFinalizeAuth W iss resp]) ++ [CTokens W k]) c0) by (rewrite run_calls_snoc, <- R1; cbn [run_call]; now rewrite Eg).
    split; [rewrite R2; now apply closed_reach|].
    destruct (token_accepted W cl k c1 m c3 K Eg) as (TA & _).
    destruct (dget (verified "id_token") m) as [w|] eqn:Ew; [|discriminate]. cbn in Hi. subst w.
    unfold session_id_token, session_items. cbn [newest_with].
    destruct (get_item (sdb c3) cMessage "refresh_token_response" k) as [i|] eqn:Er.
    { exfalso. rewrite R2 in Er. exact (no_refresh_item cl _ c0 k cMessage i PC OK2 E K Er). }
    rewrite TA. destruct (msg_new_total cMessage (msg_to_dict cTokenResponse m) eq_refl) as [m' Hm]. rewrite Hm.
    rewrite (stored_verified cTokenResponse m claims m' eq_refl eq_refl (get_tokens_uniq _ _ _ _ _ _ HU Eg) Hm Ew). reflexivity. }
  unfold get_access_and_id_token, bind, read_db, lift in T. destruct (get_item _ _ _ _) as [rq|]; [|discriminate].
  destruct (dget "response_type" rq) as [[| | | |rt|]|]; try discriminate.
  assert (A : forall b x, (if b : bool then dict_get (verified "id_token") ar else Ok VNone) = Ok x -> x = VNone \/ dget (verified "id_token") ar = Some x).
  { intros [] x; [|intros [= <-]; now left]. unfold dict_get. destruct (dget (verified "id_token") ar); [intros [= <-]; now right|discriminate]. }
  destruct (if one_of rt _ then dict_get (verified "id_token") ar else Ok VNone) as [i|] eqn:Ei; [|discriminate]. apply A in Ei.
  assert (FR : c1 = c2 -> dget (verified "id_token") ar = Some (VDict claims) -> closed rnd32 (sdb c2) /\ session_id_token (sdb c2) k = Some (VDict claims)).
  { intros <- Hv. split; [exact CL1|]. pose proof (finalize_auth_spec _ _ _ _ _ _ _ F) as S. cbn in S.
    destruct S as [[S _]|(_ & s & S1 & S2 & S3 & S4 & S5 & _)]; [congruence|]. rewrite Hs in S1. injection S1 as <-.
    unfold session_id_token, session_items. cbn [newest_with].
    destruct (get_item (sdb c1) cMessage "refresh_token_response" k) as [j|] eqn:Er.
    { exfalso. rewrite R1 in Er. exact (no_refresh_item cl _ c0 k cMessage j PC OK1 E K Er). }
    rewrite S5 by discriminate. destruct (get_item (sdb c) cMessage "token_response" k) as [j|] eqn:Et; [exfalso; apply NT; red; eauto|].
    rewrite S4. destruct (msg_new_total cMessage (msg_to_dict cAuthzResponse ar) eq_refl) as [m' Hm]. rewrite Hm.
    rewrite (stored_verified cAuthzResponse ar claims m' eq_refl eq_refl (front_uniq _ _ _ _ _ _ _ CL (HU "authorization") F NE) Hm Hv). reflexivity. }
  destruct (one_of rt _); [|destruct (one_of rt _)].
  - destruct (dict_get "access_token" ar) as [a|]; [|discriminate]. destruct collect; [auto|].
    injection T as <- <-. cbn [t_id] in Hi. subst i. destruct Ei; [congruence|]. apply FR; auto.
  - auto.
  - injection T as <- <-. cbn [t_id] in Hi. subst i. destruct Ei; [congruence|]. apply FR; auto.
Qed.
Lemma in_id_token_sub claims : dget "sub" (userinfo_in_id_token claims) = dget "sub" claims.
Proof.
  unfold userinfo_in_id_token. rewrite dget_dupdate.
  assert (R : dget "sub" (rev (filter (fun kv => negb (mem_str (fst kv) id_token_claims)) claims)) = None).
  { apply dget_None_In. intros I. apply in_map_iff in I. destruct I as ([a b] & E1 & E2). cbn in E1. subst a.
    apply in_rev, filter_In in E2. destruct E2 as [_ E2]. discriminate. }
  rewrite R. unfold schema_claims. cbn [flat_map]. destruct (dget "sub" claims) eqn:Es; [reflexivity|]. cbn [app].
  apply dget_None_In. intros I. apply in_map_iff in I. destruct I as ([a b] & E1 & E2). cbn in E1. subst a.
  repeat match type of E2 with In _ (?x ++ ?y) => apply in_app_or in E2; destruct E2 as [E2|E2] end;
    try (match type of E2 with context [dget ?k claims] => destruct (dget k claims); [destruct E2 as [E2|[]]; injection E2 as E2 _; discriminate|destruct E2] end). destruct E2.
Qed.
Lemma login_user_info cl os c0 W iss resp collect info k tok claims ss c' sub :
  plain_client cl -> sdb c0 = [] -> Forall call_ok os -> rnd32 k ->
  (forall name c m v, e_vrf W name c m = Ok v -> uniq v) ->
  let c := run_calls cl os c0 in ~ has_tokens (sdb c) k ->
  finalize W cl iss resp collect c = (Ok (FOk info (VStr k) tok (VDict claims) ss), c') -> dget "sub" claims = Some sub ->
  info = [] \/ dget "sub" info = Some sub \/
  exists c1 m0 v, e_vrf W "userinfo" c1 m0 = Ok v /\ dget "sub" v = Some sub /\ (In "sub" (claims_from_sources v) \/ In "_claim_names" (claims_from_sources v)).
Proof.
  intros PC E OK K HU c NT H Hs. unfold finalize in H. apply bind_ok in H. destruct H as (ar & c1 & E1 & H). destruct (is_error_message ar) eqn:Ee.
  { apply bind_ok in H. destruct H as (? & ? & _ & H). apply bind_ok in H. destruct H as (? & ? & _ & H). discriminate. }
  destruct (dget "state" ar) as [[| | |k'| |]|] eqn:Es; try discriminate. apply bind_ok in H. destruct H as (t & c2 & E2 & H).
  apply bind_ok in H. destruct H as (inf & c3 & E3 & H). apply bind_ok in H. destruct H as ([] & c4 & _ & H). injection H as -> -> _ Hi _ _.
  destruct (login_id_token cl os c0 W iss resp collect ar c1 k t c2 claims PC E OK K HU E1 Ee Es E2 Hi NT) as [CL SI].
  destruct (has_service cl "userinfo" && truthy (t_access t)).
  - destruct (t_access t) as [| | |a| |]; try discriminate. apply bind_ok in E3. destruct E3 as (r & c5 & G & E3). injection E3 as <- <-.
    destruct (user_info_sub W cl k a c2 (Ok r) c5 claims sub CL SI Hs G) as [[_ X]|(m0 & v & m & V1 & V2 & V3 & V4 & V5 & V6)].
    + left. destruct r as [m| |]; [now destruct (X m)|reflexivity|reflexivity].
    + destruct V3 as [V3|[e V3]]; [|discriminate]. injection V3 as ->. cbn [msg_of]. right.
      destruct (in_dec string_dec "sub" (claims_from_sources v)) as [D1|D1]; [right; exists c2, m0, v; auto|].
      destruct (in_dec string_dec "_claim_names" (claims_from_sources v)) as [D2|D2]; [right; exists c2, m0, v; auto|].
      left. apply V6; assumption.
  - right. left. rewrite Hi in E3. destruct claims as [|kv r]; [discriminate|]. injection E3 as <- _. now rewrite in_id_token_sub.
Qed.
Lemma login_own_nonce cl os0 os1 c0 W0 W reqs beh u k c1 iss resp collect info tok claims ss c' ep :
  plain_client cl -> sdb c0 = [] -> Forall call_ok os0 -> Forall call_ok os1 ->
  rnd32 (e_state W0) -> (forall m v, e_hash W0 m v <> "") -> uniq reqs -> config_uniq c0 ->
  dget "nonce" reqs = None -> configured c0 "nonce" = None -> e_nonce W0 <> "" -> no_request_object beh ->
  dget "authorization_endpoint" (provider_info c0) = Some (VStr ep) -> u_query (urlsplit ep) = "" ->
  init_authorization W0 cl reqs beh (run_calls cl os0 c0) = (Ok (u, k), c1) ->
  not_begun k os0 -> (forall o, In o os1 -> leaves k o) ->
  finalize W cl iss resp collect (run_calls cl os1 c1) = (Ok (FOk info (VStr k) tok (VDict claims) ss), c') -> claims <> [] ->
  dget "nonce" claims = Some (VStr (e_nonce W0)) /\ query_has u "nonce" (e_nonce W0) /\ query_has u "state" k.
Proof.
  intros PC E OK0 OK1 K HH U CU N1 N2 Ne NR EP EQ H BO LV F Cne.
  assert (HK0 : run_calls cl os0 c0 = set_db (sdb (run_calls cl os0 c0)) c0) by (apply history_keeps; auto; rewrite E; apply closed_nil).
  assert (HN : chosen c0 reqs "nonce" (Some (VStr (e_nonce W0))) = Some (VStr (e_nonce W0))) by (unfold chosen; now rewrite N1, N2).
  destruct (login_nonce cl os0 os1 c0 W0 W reqs beh u k c1 _ iss resp collect info tok claims ss c' PC E OK0 OK1 K HH U CU HN Ne H BO LV F Cne) as (x & X1 & X2).
  assert (x = e_nonce W0) as -> by tauto. split; [assumption|].
  assert (CU' : config_uniq (run_calls cl os0 c0)) by (rewrite HK0; exact CU).
  assert (HN' : chosen (run_calls cl os0 c0) reqs "nonce" (Some (VStr (e_nonce W0))) = Some (VStr (e_nonce W0))) by (rewrite HK0; exact HN).
  destruct (request_state_and_nonce W0 cl reqs beh _ u k c1 (e_nonce W0) K (proj1 PC) HH U CU' HN' Ne H) as (_ & _ & _ & _ & Q & _).
  destruct (Q ep) as [Q1 Q2]; auto. rewrite HK0. exact EP.
Qed.
