(** Proofs for T_CC.v *)
From Verif Require Import Base BaseP Json JsonP Msg M_State S_State P_State M_Ctx M_Codec M_Authz M_ClientAuth
  M_Service M_Token M_Handler M_CC S_ClientAuth S_Service S_Token S_Handler S_Flow S_CC P_Ctx P_Authz P_Codec P_ClientAuth P_Service P_Wire P_Token
  P_Handler P_Flow P_Flow2 P_Token2 P_Handler2 P_Handler3.

Lemma unconfigured_none s c p o : s_defaults s = [] -> ctx_get c p = None -> unconfigured c (s_conf s) p ->
  first_usable [ctx_get c p; dget p (conf_request_args s); dget p (register_args c); dget p (s_defaults s); dget p (behaviour c)] o -> o = None.
Proof.
  intros D X (U1 & U2 & U3) F. unfold conf_request_args in F. rewrite D, X, U1, U2, U3 in F. cbn in F.
  repeat match goal with H : first_usable (None :: _) _ |- _ => inversion H; subst; clear H end.
  now match goal with H : first_usable [] _ |- _ => inversion H end.
Qed.
Lemma headers_wire_inv E s args kw c i c' : s_http_method s = "POST" -> s_req_type s = "urlencoded" -> s_extra s = [] ->
  (forall c, s_authn s c <> "") ->
  get_request_parameters E s args "" "" "" kw c = (Ok i, c') ->
  exists req0 txt ha kw', construct s args kw c = (Ok req0, c') /\ i_body i = Some (BText txt) /\
    (forall p, p <> "iss" -> p <> "authn_endpoint" -> dget p kw' = dget p kw) /\
    authenticate E (s_authn s c) (s_name s) (s_cls s) (s_atr s) c' kw' None req0 = Ok (ha, i_request i) /\
    i_headers i = dset "Content-Type" URL_ENCODED (match ha with Some h => h | None => [] end).
Proof.
  intros Hm Ht He Ha H. destruct (post_form_headers _ _ _ _ _ _ _ _ Hm Ht He H) as (req0 & txt & h0 & _ & G1 & G2 & _ & G4). clear h0 G4.
  apply grp_inv in H. cbv zeta in H. cbn [String.eqb eqs] in H. rewrite Hm, Ht in H.
  destruct H as (req0' & c1 & h & req1 & ep & H1 & H2 & H3 & H4 & H5 & H6 & H7). rewrite G1 in H1. injection H1 as <- <-. simpl in H7.
  destruct H7 as (b & H7 & H8 & H9).
  unfold get_headers in H2. rewrite He in H2. unfold bind, asks, ret, run_headers in H2.
  rewrite (eqb_neq _ _ (Ha c)) in H2.
  match type of H2 with context [get_authn_header ?a ?b ?d ?e ?f ?g] => destruct (get_authn_header a b d e f g) as [[h1 r1]|] eqn:E1 end; [|discriminate].
  cbn [fst snd] in H2. injection H2 as <- <-. unfold get_authn_header in E1. rewrite (eqb_neq _ _ (Ha c)) in E1.
  unfold rbind in E1.
  match type of E1 with context [authenticate ?a ?b ?x ?d ?e ?f ?g ?h ?k] => destruct (authenticate a b x d e f g h k) as [[ha r]|] eqn:AU end; [|discriminate].
  injection E1 as <- <-. rewrite H5. exists req0, txt, ha. eexists. split; [exact G1|]. split; [exact G2|].
  split; [|split; [exact AU|exact H9]].
  intros p N1 N2. rewrite dget_dset_neq by auto. destruct (issuer c' =?s ""); [reflexivity|]. now rewrite dget_dset_neq by auto.
Qed.
Lemma cc_construct vrf now conf args st c req c' : NoDup (dkeys args) -> dget "grant_type" args = None -> dget "client_secret" args = None ->
  unconfigured c conf "grant_type" ->
  construct (cc_token_service vrf now conf) args (state_kw st) c = (Ok req, c') ->
  c' = c /\ NoDup (dkeys req) /\ dget "grant_type" req = Some (VStr "client_credentials") /\ dget "client_secret" req = None.
Proof.
  intros N G1 G2 U H. destruct (construct_plain (cc_token_service vrf now conf) _ _ _ _ _ eq_refl eq_refl H) as (-> & out & O & M).
  assert (A : (match dget "state" (state_kw st) with
               | Some v => if mem_str "state" (c_par (s_cls (cc_token_service vrf now conf))) then dsetdefault "state" v args else args
               | None => args end) = args) by (destruct st; reflexivity).
  rewrite A in O. destruct (gather_spec _ _ _ _ (eq_refl : s_gather (cc_token_service vrf now conf) = no_gather) O) as [NO G]. specialize (NO N).
  split; [reflexivity|]. split; [eapply msg_new_NoDup; [|exact M]; cbn; constructor; [easy|constructor]|].
  destruct (G "grant_type") as (_ & P1 & _). specialize (P1 G1 ltac:(cbn; auto)).
  apply unconfigured_none in P1; [|reflexivity|reflexivity|exact U].
  destruct (G "client_secret") as (_ & _ & P2). specialize (P2 G2). 
  rewrite (msg_new_get _ _ _ NO M), P1. rewrite (msg_new_get _ _ _ NO M), P2; [split; reflexivity|]. cbn. intuition discriminate.
Qed.
Lemma cc_sends E jwt vrf now conf args st c ep : NoDup (dkeys args) -> dget "grant_type" args = None -> dget "client_secret" args = None ->
  unconfigured c conf "grant_type" -> dget "token_endpoint" (provider_info c) = Some (VStr ep) ->
  only_sends (fun http => cc_tokens E http jwt vrf now conf args st) c (cc_wire (client_id c) (client_secret c) ep).
Proof.
  intros N G1 G2 U EP. unfold cc_tokens. apply do_request_sends. intros i c1 G.
  set (s := cc_token_service vrf now conf) in *.
  destruct (post_form _ s _ _ _ _ _ _ eq_refl eq_refl eq_refl G) as (req0 & txt & C1 & C2 & C3 & C4 & C5 & C6 & C7 & C8).
  destruct (headers_wire_inv _ s _ _ _ _ _ eq_refl eq_refl eq_refl (fun _ => ltac:(discriminate)) G) as (req0' & txt' & ha & kw' & D1 & D2 & D3 & D4 & D5).
  rewrite C1 in D1. injection D1 as <-. rewrite C3 in D2. injection D2 as <-.
  destruct (cc_construct _ _ _ _ _ _ _ _ N G1 G2 U C1) as (-> & NR & GT & CS).
  change (s_authn s c) with "client_secret_basic" in D4.
  destruct (basic_full _ _ _ _ _ _ _ _ _ _ D4) as (u & p & hs & h & B1 & B2 & -> & B4 & B5 & B6 & B7 & B8).
  assert (KU : forall q, In q ["user"; "password"] -> dget q kw' = None).
  { intros q Q. rewrite D3; [destruct st; cbn in Q; intuition (subst; reflexivity)|..]; cbn in Q; intuition (subst; discriminate). }
  unfold user_in_force in B1. rewrite KU in B1 by (cbn; auto). cbn in B1. injection B1 as <-.
  unfold password_in_force in B2. rewrite KU, CS in B2 by (cbn; auto). cbn in B2. injection B2 as <-.
  assert (EU : i_url i = ep).
  { assert (X : dget "endpoint" (state_kw st) = None) by (destruct st; reflexivity). rewrite X in C8.
    assert (GE : get_endpoint s c = dict_get "token_endpoint" (provider_info c)) by reflexivity.
    rewrite GE in C8. unfold dict_get in C8. rewrite EP in C8. congruence. }
  split; [exact EU|]. split; [exact C2|]. split.
  { exists h. split; [|exact B5]. rewrite D5, dget_dset_neq by discriminate. exact B4. }
  exists txt. split; [exact C3|]. split; [|split].
  - apply C6; [auto| |discriminate]. rewrite B8 by discriminate. exact GT.
  - apply C7. exact B7.
  - apply C7. cbn [authenticate] in D4. unfold authenticate in D4. cbn in D4. unfold client_secret_basic, basic_modify, rbind in D4.
    destruct (get_user c kw'); try discriminate. destruct (get_passwd c req0 kw'); try discriminate.
    cbn in D4. injection D4 as _ D4. rewrite <- D4. apply dget_ddel_eq.
Qed.
Lemma cc_refresh_construct vrf now conf args k c req c' rt it : NoDup (dkeys args) -> dget "pre_construct" conf = None ->
  dget "grant_type" args = None -> dget "refresh_token" args = None -> unconfigured c conf "grant_type" ->
  (forall e, get_item (sdb c) cTokenResponse "refresh_token_response" k <> Ok e) ->
  get_item (sdb c) cTokenResponse "token_response" k = Ok it -> dget "refresh_token" it = Some (VStr rt) ->
  dget (verified "refresh_token") it = None -> rt <> "" ->
  construct (cc_refresh_service vrf now conf) args (state_kw (Some k)) c = (Ok req, c') ->
  c' = c /\ NoDup (dkeys req) /\ dget "refresh_token" req = Some (VStr rt) /\ dget "grant_type" req = Some (VStr "refresh_token") /\
  dget "client_id" req = None /\ dget "client_secret" req = None.
Proof.
  intros NA PC GT RA U NI HI HR HV Ne H. set (s := cc_refresh_service vrf now conf) in *.
  apply construct_inv in H. destruct H as (a & post & c1 & out & req0 & H1 & H2 & H3 & H4).
  change (do_post_construct s req0 (post_args (state_kw (Some k)) post)) with (bind (cc_refresh_post req0 (method_args s "post_construct" (post_args (state_kw (Some k)) post))) (fun q => ret q)) in H4.
  unfold bind, cc_refresh_post, ret in H4. injection H4 as <- <-.
  unfold do_pre_construct in H1. rewrite method_args_plain in H1 by exact PC. change (s_pre s) with [cc_refresh_pre] in H1. cbn [run_pre] in H1.
  apply bind_ok in H1. destruct H1 as ([a1 p1] & d1 & E1 & H1). cbn [fst snd] in H1. unfold ret in H1. injection H1 as <- <- <-.
  assert (FP : fill_params false it [] ["refresh_token"] = [("refresh_token", VStr rt)]) by (cbn; unfold offer; cbn in HV; unfold verified in *; cbn in *; rewrite ?HV, HR; reflexivity).
  assert (X1 : extend_request_args (sdb c) [] cTokenResponse "token_response" k ["refresh_token"] false = Ok [("refresh_token", VStr rt)])
    by (unfold extend_request_args; rewrite HI; now rewrite FP).
  assert (E2 : exists e, get_item (sdb c) cTokenResponse "refresh_token_response" k = Err e) by (destruct (get_item (sdb c) cTokenResponse "refresh_token_response" k) as [x|e]; [now destruct (NI x)|eauto]).
  destruct E2 as [e E2]. unfold cc_refresh_pre in E1. change (dget "state" (state_kw (Some k))) with (Some (VStr k)) in E1.
  cbn [key_arg rbind] in E1. rewrite X1 in E1. cbn [rbind] in E1. unfold extend_request_args in E1. rewrite E2 in E1.
  destruct e; try discriminate E1. cbn [rbind] in E1. injection E1 as <- <- <-.
  set (a1 := dupdate [("refresh_token", VStr rt)] args) in *.
  assert (N1 : NoDup (dkeys a1)) by (apply NoDup_dupdate; cbn; constructor; [easy|constructor]).
  assert (A1 : forall p, dget p a1 = match dget p args with Some v => Some v | None => dget p [("refresh_token", VStr rt)] end).
  { intros p. unfold a1. rewrite dget_dupdate_NoDup by assumption. reflexivity. }
  assert (SD : state_default s (state_kw (Some k)) a1 = a1) by reflexivity. rewrite SD in H2.
  destruct (gather_spec _ _ _ _ (eq_refl : s_gather s = no_gather) H2) as [NO GO]. specialize (NO N1).
  assert (NR : NoDup (dkeys req0)) by (eapply msg_new_NoDup; [|exact H3]; cbn; constructor; [easy|constructor]).
  split; [reflexivity|]. split; [now apply NoDup_ddel, NoDup_ddel|].
  assert (OR : dget "refresh_token" out = Some (VStr rt)) by (apply (GO "refresh_token"); rewrite A1, RA; reflexivity).
  assert (OG : dget "grant_type" out = None).
  { destruct (GO "grant_type") as (_ & P & _). eapply unconfigured_none; [..|apply P]; [reflexivity|reflexivity|exact U| |cbn; auto]. rewrite A1, GT. reflexivity. }
  rewrite !dget_ddel_neq by discriminate. rewrite dget_ddel_eq. rewrite dget_ddel_eq.
  rewrite !(msg_new_get _ _ _ NO H3). rewrite OR, OG. split; [|repeat split; reflexivity].
  unfold skipped. destruct rt; [easy|]. now apply shown_plain.
Qed.
Lemma cc_refresh_sends E jwt vrf now conf args k c ep rt it : NoDup (dkeys args) -> dget "pre_construct" conf = None ->
  dget "grant_type" args = None -> dget "refresh_token" args = None -> unconfigured c conf "grant_type" ->
  (forall e, get_item (sdb c) cTokenResponse "refresh_token_response" k <> Ok e) ->
  get_item (sdb c) cTokenResponse "token_response" k = Ok it -> dget "refresh_token" it = Some (VStr rt) ->
  dget (verified "refresh_token") it = None -> rt <> "" -> dget "token_endpoint" (provider_info c) = Some (VStr ep) ->
  only_sends (fun http => cc_refresh E http jwt vrf now conf args (Some k)) c (cc_refresh_wire rt ep).
Proof.
  intros NA PC GT RA U NI HI HR HV Ne EP. unfold cc_refresh. apply do_request_sends. intros i c1 G.
  set (s := cc_refresh_service vrf now conf) in *.
  destruct (post_form _ s _ _ _ _ _ _ eq_refl eq_refl eq_refl G) as (req0 & txt & C1 & C2 & C3 & C4 & C5 & C6 & C7 & C8).
  destruct (headers_wire_inv _ s _ _ _ _ _ eq_refl eq_refl eq_refl (fun _ => ltac:(discriminate)) G) as (req0' & txt' & ha & kw' & D1 & D2 & D3 & D4 & D5).
  rewrite C1 in D1. injection D1 as <-. rewrite C3 in D2. injection D2 as <-.
  destruct (cc_refresh_construct _ _ _ _ _ _ _ _ _ _ NA PC GT RA U NI HI HR HV Ne C1) as (-> & NR & RT & GR & CI & CS).
  change (authenticate E (s_authn s c) (s_name s) (s_cls s) (s_atr s) c kw' None req0) with (bearer_header "refresh_token" c kw' None req0) in D4.
  destruct (bearer_header_spec _ _ _ _ _ _ _ D4) as (t & hs & T1 & T2 & -> & T4 & _).
  change ("refresh_token" =?s "refresh_token") with true in T1. cbv iota in T1. rewrite (find_token_request _ _ _ _ _ RT) in T1. injection T1 as <- T1.
  assert (EU : i_url i = ep).
  { change (dget "endpoint" (state_kw (Some k))) with (@None val) in C8. cbv iota in C8.
    assert (GE : get_endpoint s c = dict_get "token_endpoint" (provider_info c)) by reflexivity.
    rewrite GE in C8. unfold dict_get in C8. rewrite EP in C8. congruence. }
  split; [exact EU|]. split; [exact C2|]. split; [rewrite D5, dget_dset_neq by discriminate; exact T4|].
  exists txt. split; [exact C3|]. split; [|split; [|split]].
  - apply C6; [auto| |discriminate]. rewrite <- T1, dget_ddel_neq by discriminate. exact GR.
  - apply C7. rewrite <- T1. apply dget_ddel_eq.
  - apply C7. rewrite <- T1, dget_ddel_neq by discriminate. exact CS.
  - apply C7. rewrite <- T1, dget_ddel_neq by discriminate. exact CI.
Qed.
(** what is stored *)
Lemma pure_cc vrf now conf E args kw : pure (get_request_parameters E (cc_token_service vrf now conf) args "" "" "" kw).
Proof. apply pure_grp; [reflexivity|]. apply pure_construct; intros m []. Qed.
Lemma pure_cc_refresh vrf now conf E args kw : pure (get_request_parameters E (cc_refresh_service vrf now conf) args "" "" "" kw).
Proof.
  apply pure_grp; [reflexivity|]. apply pure_construct.
  - intros m [<-|[]] a p kw' c. reflexivity.
  - intros m [<-|[]] r kw' c. reflexivity.
Qed.
Lemma store_item_others c m t k d r d' cc t' x : store_item (IMsg c m) t k d = (r, d') -> t' <> t ->
  (get_item d' cc t' k = Ok x <-> get_item d cc t' k = Ok x).
Proof.
  intros H Ht. destruct (old_state d k) as [s|] eqn:E.
  - destruct (store_item_spec d k t c m s E) as [H1 H2]. rewrite H1 in H. injection H as <- <-.
    unfold get_item. rewrite H2. rewrite dget_dset_neq by congruence. unfold old_state in E.
    destruct (get_state d k) as [s0|e]; [injection E as ->; reflexivity|]. destruct e; try discriminate E. injection E as <-. cbn. split; discriminate.
  - destruct (store_item_err d k t c m E) as [e He]. rewrite He in H. injection H as <- <-. reflexivity.
Qed.
Lemma stamped_at now raw m : add_expires_at now raw = Ok m -> stamped now raw m.
Proof.
  intros G. pose proof (P_Token.expires_spec _ _ _ G) as X. unfold stamped. destruct (dget "expires_in" raw); [|exact X].
  destruct X as (n & X1 & ->). exists n. split; [exact X1|]. intros k. rewrite dget_dset. now rewrite String.eqb_sym.
Qed.
Lemma cc_stores E http jwt s vrf now args kw c r c' : s_post_parse s = pass -> s_vrf s = vrf -> s_update s = store_token_response now ->
  pure (get_request_parameters E s args "" "" "" kw) -> do_request E http jwt s "" args "" kw c = (r, c') ->
  stores_answer vrf now (match dget "state" kw with Some (VStr x) => x | _ => "" end) c r c'.
Proof.
  intros TP TV TU P D. specialize (P c). apply do_request_inv in D. destruct D as [(e & B1 & ->)|(i & c2 & B1 & B2)]; rewrite B1 in P; cbn in P; [exact P|]. subst c2. clear B1.
  assert (RO : reads_only (s_post_parse s)) by (rewrite TP; intros m q c2 r2 c3 E2; now injection E2 as _ ->).
  destruct (service_request_spec _ _ _ _ _ _ _ _ _ _ _ _ RO B2) as [[-> G]|(resp & raw & C1 & C2 & C3 & r0 & C4 & ->)].
  { destruct r as [[m| |]|]; cbn; auto. }
  unfold accepted in C3. rewrite TP, TV in C3. unfold pass, ret in C3. rewrite TU in C4.
  pose proof (store_token_effect _ _ _ _ _ _ C4) as S. destruct r0 as [m|e]; [|exact S]. cbn. right.
  destruct S as (S1 & S2 & S3 & _ & _ & S4). split; [|split; [exact S3|split; [|split; [exact S4|exact S2]]]].
  - destruct C3 as [[_ (m0 & v & q & D1 & D2 & D3)]|[_ (m1 & (m0 & v & q & D1 & D2 & D3) & D4)]];
      injection D3 as <-; apply stamped_at in S1; eauto 10.
  - intros cc t x Ht. unfold store_token_response in C4. rewrite S1 in C4. unfold bind, on_db, ret in C4.
    destruct (store_item (IMsg cTokenResponse m) "token_response" _ (sdb c)) as [r1 d1] eqn:ES.
    destruct r1; injection C4 as C4; try discriminate. subst c'. cbn [sdb set_db]. eapply store_item_others; eassumption.
Qed.
Lemma cc_then_refresh E http jwt E' jwt' vrf now vrf' now' conf conf' args args' k c m c' ep rt :
  NoDup (dkeys args') -> dget "pre_construct" conf' = None -> dget "grant_type" args' = None -> dget "refresh_token" args' = None ->
  unconfigured c conf' "grant_type" -> dget "token_endpoint" (provider_info c) = Some (VStr ep) ->
  (forall x, get_item (sdb c) cTokenResponse "refresh_token_response" k <> Ok x) ->
  cc_tokens E http jwt vrf now conf args (Some k) c = (Ok (RMsg m), c') -> dhas "error" m = false ->
  NoDup (dkeys m) -> dget "refresh_token" m = Some (VStr rt) -> rt <> "" -> dget (verified "refresh_token") m = None ->
  only_sends (fun http => cc_refresh E' http jwt' vrf' now' conf' args' (Some k)) c' (cc_refresh_wire rt ep).
Proof.
  intros NA PC GT RA U EP NI H ER NM HR Ne HV.
  pose proof (cc_stores _ _ _ (cc_token_service vrf now conf) vrf now _ _ _ _ _ eq_refl eq_refl eq_refl (pure_cc vrf now conf E args (state_kw (Some k))) H) as S.
  cbn in S. destruct S as [[_ S]|(S1 & S2 & S3 & S4 & S5)]; [congruence|].
  destruct (msg_new_total cTokenResponse (msg_to_dict cTokenResponse m) eq_refl) as [it I].
  eapply (cc_refresh_sends _ _ _ _ _ _ _ _ _ _ it); try assumption.
  - unfold unconfigured in *. rewrite S5. exact U.
  - intros x X. apply S3 in X; [|discriminate]. now apply (NI x).
  - now rewrite S2.
  - eapply stored_param; [exact NM|exact I|reflexivity|reflexivity|reflexivity|exact HR|exact Ne].
  - assert (ND : NoDup (dkeys (msg_to_dict cTokenResponse m))) by (now rewrite ser_keys). rewrite (msg_new_get _ _ _ ND I), ser_get, HV. reflexivity.
  - now rewrite S5.
Qed.
