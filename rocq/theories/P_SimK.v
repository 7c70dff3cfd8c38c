(** The calls for one session [k] on two stores that agree about it, as far as it is
    [clean]: an interface for P_Sched.v and P_Retry.v. *)
From Verif Require Import Base BaseP Json JsonP Msg M_State S_State P_State M_Ctx M_Codec M_Authz M_ClientAuth
  M_Service M_Token M_Handler S_Service S_Token S_Handler S_Flow S_Trace S_Sched P_Ctx P_Authz P_Codec P_ClientAuth P_Service P_Wire P_Token
  P_Handler P_Flow P_Trace P_Sim.

Section Session.
  Variable k : string.
  Hypothesis Hk : rnd32 k.
  Variable Rdb : db -> db -> Prop.
  Variable c00 : ctx.
  Variable clean : string -> bool.
  Local Notation Rc := (P_Sim.Rc Rdb c00).
  Local Notation sim := (P_Sim.sim Rdb c00).
  Hypothesis H_item : forall t, clean t = true -> forall d1 d2 cc, Rdb d1 d2 -> get_item d1 cc t k = get_item d2 cc t k.
  Hypothesis H_iss : forall d1 d2, Rdb d1 d2 -> get_iss d1 k = get_iss d2 k.
  Hypothesis H_mult : forall ts, forallb clean ts = true -> forall d1 d2 a ps o, Rdb d1 d2 ->
    multiple_extend_request_args d1 a k ps ts o = multiple_extend_request_args d2 a k ps ts o.
  Hypothesis H_empty : forall d1 d2, Rdb d1 d2 -> get_state d1 "" = Err (KeyError "") /\ get_state d2 "" = Err (KeyError "").
  Hypothesis sim_store : forall w cc m t, t <> "iss" -> sim w (on_db (store_item (IMsg cc m) t k)) any.
  Hypothesis sim_bindx : forall w x v, In x kinds -> sim w (on_db (store_x2state v k x)) any.
  Hypothesis R_nonce : forall d1 d2 n, Rdb d1 d2 -> get_state_by_nonce d1 n = Ok k <-> get_state_by_nonce d2 n = Ok k.

  Lemma H_extend t : clean t = true -> forall d1 d2 a cc ps o, Rdb d1 d2 -> extend_request_args d1 a cc t k ps o = extend_request_args d2 a cc t k ps o.
  Proof. intros Ht d1 d2 a cc ps o H. unfold extend_request_args. now rewrite (H_item t Ht _ _ _ H). Qed.

  (** ** the token endpoint *)
  Lemma sim_store_token w now resp : sim w (store_token_response now resp k) any.
  Proof.
    unfold store_token_response. destruct (add_expires_at now resp); [|apply sim_raise].
    eapply sim_bind; [apply sim_store; discriminate|]. intros _ _. now apply sim_ret.
  Qed.
  Lemma k_ne : k <> "".
  Proof. destruct rnd32_family as (K1 & _). now apply K1. Qed.
  Lemma sim_token_update now resp : sim true (oidc_token_update now resp k) any.
  Proof.
    intros c1 c2 C.
    destruct (dget (verified "id_token") resp) as [[| | | | |idt]|] eqn:Ei.
    1-5: unfold oidc_token_update; rewrite Ei; apply (sim_raise true TypeError any c1 c2 C).
    2:{ assert (E : forall c, oidc_token_update now resp k c = store_token_response now resp k c) by (intros c; unfold oidc_token_update; now rewrite Ei).
        rewrite !E. now apply sim_store_token. }
    assert (D : {forall n, dget "nonce" idt = Some (VStr n) -> get_state_by_nonce (sdb c1) n <> Ok k} + {exists n, dget "nonce" idt = Some (VStr n) /\ get_state_by_nonce (sdb c1) n = Ok k}).
    { destruct (dget "nonce" idt) as [[| | |n| |]|]; try (left; discriminate). destruct (get_state_by_nonce (sdb c1) n) as [q|e] eqn:En.
      - destruct (string_dec q k) as [->|N]; [right; eauto|]. left. intros n' [= <-]. congruence.
      - left. intros n' [= <-]. congruence. }
    destruct D as [D|(n & Hn & En)].
    - assert (D2 : forall n, dget "nonce" idt = Some (VStr n) -> get_state_by_nonce (sdb c2) n <> Ok k).
      { intros n Hn. rewrite <- (R_nonce _ _ n (proj1 C)). now apply D. }
      rewrite (token_update_rejects _ _ _ _ _ Ei D), (token_update_rejects _ _ _ _ _ Ei D2). cbn [fst snd].
      split; [right; split; [reflexivity|eauto]|]. split; [exact C|discriminate].
    - assert (En2 : get_state_by_nonce (sdb c2) n = Ok k) by (rewrite <- (R_nonce _ _ n (proj1 C)); exact En).
      assert (E : forall c, get_state_by_nonce (sdb c) n = Ok k -> oidc_token_update now resp k c =
         ((match dget "sub" idt with Some (VStr sub) => on_db (store_sub2state sub k) | Some _ => raise OtherError | None => raise (KeyError "sub") end) ;;;
          store_token_response now resp k) c).
      { intros c Ec. unfold oidc_token_update. rewrite Ei. unfold bind at 1 2. rewrite Hn, Ec, String.eqb_refl.
        destruct (dget "sub" idt) as [[| | |sub| |]|]; reflexivity. }
      rewrite !E by assumption. clear En En2 E.
      match goal with |- agree ?w (fst (?f c1)) _ /\ _ => enough (S : sim w f any) by (now apply S) end.
      eapply sim_bind with (Q := any); [|intros _ _; apply sim_store_token].
      destruct (dget "sub" idt) as [[| | |sub| |]|]; try apply sim_raise. apply sim_bindx, in_sub.
  Qed.

  (** ** the calls *)
  Definition kwk : dict val := [("state", VStr k)].
  Lemma method_state s what : dget "state" (method_args s what kwk) = Some (VStr k).
  Proof. unfold method_args. destruct (dget what (s_conf s)) as [[| | | | |d]|]; try reflexivity. rewrite dget_dupdate. reflexivity. Qed.
  Lemma sim_pre_state w s args (Q : dict val -> Prop) : Q args ->
    (forall m, In m (s_pre s) -> forall a p kw', dget "state" kw' = Some (VStr k) -> Q a -> sim w (m a p kw') (fun ap => Q (fst ap))) ->
    sim w (do_pre_construct s args kwk) (fun ap => Q (fst ap)).
  Proof. intros Ha HM. unfold do_pre_construct. apply sim_run_pre; [exact Ha|]. intros m Hm a p Qa. apply HM; auto. now apply method_state. Qed.
  Lemma kw_param kw (a : dict val) : dget "state" kw = Some (VStr k) -> get_state_parameter a kw = Ok (VStr k).
  Proof. unfold get_state_parameter. now intros ->. Qed.
  Lemma sim_token_pre w ps a p kw (Q : dict val -> Prop) : clean "auth_request" = true -> clean "auth_response" = true -> dget "state" kw = Some (VStr k) ->
    (forall b, Q (dupdate b a)) -> sim w (token_pre ps a p kw) (fun ap => Q (fst ap)).
  Proof.
    intros CQ CR H HQ. unfold token_pre. apply sim_read.
    - intros c1 c2 C. rewrite (kw_param _ _ H). cbn [rbind key_arg]. rewrite (H_extend _ CQ _ _ _ _ _ _ (proj1 C)).
      destruct (extend_request_args (sdb c2) [] _ _ _ _ _); [|reflexivity]. cbn [rbind]. now rewrite (H_extend _ CR _ _ _ _ _ _ (proj1 C)).
    - intros c x _. rewrite (kw_param _ _ H). cbn [rbind key_arg]. destruct (extend_request_args (sdb c) [] _ _ _ _ _); [|discriminate]. cbn [rbind].
      destruct (extend_request_args (sdb c) _ _ _ _ _ _); [|discriminate]. cbn [rbind]. intros [= <-]. apply HQ.
  Qed.
  Lemma sim_refresh_pre w ps a p kw : clean "token_response" = true -> clean "refresh_token_response" = true -> dget "state" kw = Some (VStr k) -> sim w (refresh_pre ps a p kw) any.
  Proof.
    intros CT CF H. unfold refresh_pre. apply sim_read; [|intros; exact I].
    intros c1 c2 C. rewrite (kw_param _ _ H). cbn [rbind key_arg]. rewrite (H_extend _ CT _ _ _ _ _ _ (proj1 C)).
    destruct (extend_request_args (sdb c2) [] _ _ _ _ _); [|reflexivity]. cbn [rbind]. now rewrite (H_extend _ CF _ _ _ _ _ _ (proj1 C)).
  Qed.
  Lemma sim_carry w a p kw (Q : dict val -> Prop) : Q a -> sim w (carry_state a p kw) (fun ap => Q (fst ap)).
  Proof.
    intros H. unfold carry_state. apply sim_read; [reflexivity|]. intros c x _. destruct (get_state_parameter a kw); [|discriminate].
    cbn [rbind]. intros [= <-]. exact H.
  Qed.
  Lemma sim_verifier w r kw : clean "pkce" = true -> dget "state" r = Some (VStr k) -> sim w (add_code_verifier r kw) any.
  Proof.
    intros CP H. unfold add_code_verifier. apply sim_read; [|intros; exact I]. intros c1 c2 C. rewrite H. cbn [rbind key_arg].
    now rewrite (H_item _ CP _ _ _ (proj1 C)).
  Qed.
  Definition has_k (a : dict val) : Prop := NoDup (dkeys a) /\ dget "state" a = Some (VStr k).
  Lemma token_req W cl args : clean "auth_request" = true -> clean "auth_response" = true -> clean "pkce" = true -> tame W -> has_k args ->
    P_Sim.req_sim Rdb c00 k (token_svc W cl) args kwk.
  Proof.
    intros CQ CR CP (T1 & _) HA.
    assert (F : s_extra (token_svc W cl) = [] /\ s_post_parse (token_svc W cl) = pass /\ s_update (token_svc W cl) = oidc_token_update (e_now W) /\
       s_pre (token_svc W cl) = (if cl_pkce cl then [token_pre (c_par cTokenRequest); put_state_in_post_args] else [token_pre (c_par cTokenRequest)]) /\
       s_post (token_svc W cl) = (if cl_pkce cl then [add_code_verifier] else []) /\ s_vrf (token_svc W cl) = e_vrf W "accesstoken" /\
       s_gather (token_svc W cl) = no_gather /\ s_cls (token_svc W cl) = cTokenRequest /\ s_authn (token_svc W cl) = token_authn_method "client_secret_basic").
    { unfold token_svc. destruct (cl_pkce cl); repeat split. }
    destruct F as (F1 & F2 & F3 & F4 & F5 & F6 & F7 & F8 & F9). generalize dependent (token_svc W cl). intros s F1 F2 F3 F4 F5 F6 F7 F8 F9.
    split; [reflexivity|]. split; [reflexivity|]. split; [exact F1|]. split; [now rewrite F9|]. split; [|split; [rewrite F6; apply T1|split; [|split]]].
    - apply sim_construct with (QA := has_k) (QR := fun r => dget "state" r = Some (VStr k)).
      + apply sim_pre_state; [exact HA|]. rewrite F4. intros m Hm a p kw' Hkw Qa.
        assert (T : sim true (token_pre (c_par cTokenRequest) a p kw') (fun ap => has_k (fst ap))).
        { intros c1 c2 C. destruct (sim_token_pre true (c_par cTokenRequest) a p kw' any CQ CR Hkw (fun _ => I) c1 c2 C) as (X1 & X2 & _).
          split; [exact X1|]. split; [exact X2|]. intros [a1 p1] Ha1. cbn [fst].
          destruct (token_pre (c_par cTokenRequest) a p kw' c1) as [r c1'] eqn:Et. cbn [fst] in Ha1. subst r.
          destruct (token_pre_spec _ _ _ _ _ _ _ _ Et (proj1 Qa)) as (_ & _ & N & G). split; [exact N|]. apply G. exact (proj2 Qa). }
        destruct (cl_pkce cl); cbn in Hm; intuition subst; auto. now apply sim_carry.
      + now rewrite F7.
      + intros a a3 c req [Na Ha] Eg Em. rewrite F8 in Em. unfold with_state_kw, kwk in Eg. cbn [dget] in Eg.
        replace ("state" =?s "state") with true in Eg by reflexivity. rewrite F8 in Eg.
        replace (mem_str "state" (c_par cTokenRequest)) with true in Eg by reflexivity.
        assert (DS : dsetdefault "state" (VStr k) a = a) by (unfold dsetdefault, dhas; now rewrite Ha). rewrite DS in Eg.
        unfold gather_request_args in Eg. destruct (gather_loop s c (c_par (s_cls s)) a) as [o1|] eqn:E5; [|discriminate]. cbn [rbind] in Eg.
        rewrite F7 in Eg. injection Eg as <-. destruct (gather_loop_get _ _ _ _ _ E5) as [NO GO]. specialize (NO Na).
        rewrite (msg_new_get _ _ _ NO Em), GO, Ha. pose proof k_ne. destruct k; [easy|reflexivity].
      + intros r post Hr. unfold do_post_construct. rewrite F5. destruct (cl_pkce cl); [|now apply sim_ret].
        cbn [run_post]. eapply sim_bind; [now apply sim_verifier|]. intros x _. now apply sim_ret.
    - rewrite F2. intros x. now apply sim_ret.
    - rewrite F2. intros x. now apply sim_ret.
    - rewrite F3. intros x. apply sim_token_update.
  Qed.
  Lemma sim_get_tokens W cl : clean "auth_request" = true -> clean "auth_response" = true -> clean "pkce" = true -> tame W -> sim true (get_tokens W cl k) any.
  Proof.
    intros CQ CR CP T c1 c2 C. unfold get_tokens. destruct (R_ctx _ _ C) as [d Hd].
    assert (CA : client_authn_method c2 = client_authn_method c1) by (now rewrite Hd).
    assert (CI : client_id c2 = client_id c1 /\ client_secret c2 = client_secret c1) by (rewrite Hd; auto). destruct CI as [CI CS].
    rewrite (H_item _ CR _ _ _ (proj1 C)), (H_item _ CQ _ _ _ (proj1 C)), CA, CI, CS.
    match goal with |- context [match ?x with Ok _ => _ | Err _ => _ end] => destruct x as [[args am]|e] eqn:Ea end.
    2:{ apply (sim_raise true e any c1 c2 C). }
    assert (HA : has_k args).
    { destruct (get_item _ _ "auth_response" k) as [ar|]; [|discriminate]. cbn [rbind] in Ea.
      destruct (get_item _ _ "auth_request" k) as [rq|]; [|discriminate]. cbn [rbind] in Ea.
      destruct (dict_get "code" ar); [|discriminate]. cbn [rbind] in Ea. destruct (dict_get "redirect_uri" rq); [|discriminate]. cbn [rbind] in Ea.
      destruct (client_authn_method c1); [|discriminate]. cbn [rbind] in Ea. injection Ea as <- _.
      split; [|reflexivity]. cbn. repeat constructor; cbn; intuition discriminate. }
    clear Ea CA CI CS Hd d. revert c1 c2 C.
    match goal with |- forall c1 c2, Rc c1 c2 -> agree ?w (fst (?f c1)) _ /\ _ => change (sim w f any) end.
    apply sim_call; [|apply sim_checked]. unfold do_request_named. destruct (has_service _ _); [|apply sim_raise].
    apply (sim_do_request k). now apply token_req.
  Qed.
  Lemma refresh_req W cl args : clean "token_response" = true -> clean "refresh_token_response" = true -> tame W ->
    P_Sim.req_sim Rdb c00 k (refresh_svc W cl) args kwk.
  Proof.
    intros CT CF (T1 & _).
    split; [reflexivity|]. split; [reflexivity|]. split; [reflexivity|]. split; [reflexivity|]. split; [|split; [apply T1|split; [|split]]].
    - apply sim_construct with (QA := any) (QR := any); [|reflexivity|intros; exact I|intros; now apply sim_ret].
      apply sim_pre_state; [exact I|]. intros m [<-|[]] a p kw' Hkw _. eapply sim_post; [now apply sim_refresh_pre|intros; exact I].
    - intros x. now apply sim_ret.
    - intros x. now apply sim_ret.
    - intros x. apply sim_store_token.
  Qed.
  Lemma sim_refresh W cl scope : clean "token_response" = true -> clean "refresh_token_response" = true -> tame W -> sim true (refresh_access_token W cl k scope) any.
  Proof.
    intros CT CF T c1 c2 C. unfold refresh_access_token. destruct (R_ctx _ _ C) as [d Hd].
    assert (CA : client_authn_method c2 = client_authn_method c1) by (now rewrite Hd). rewrite CA.
    destruct (client_authn_method c1) as [am|e]; [|apply (sim_raise true e any c1 c2 C)].
    generalize (if scope =?s "" then [] else [("scope", VStr scope)]). intros args. clear CA Hd d. revert c1 c2 C.
    match goal with |- forall c1 c2, Rc c1 c2 -> agree ?w (fst (?f c1)) _ /\ _ => change (sim w f any) end.
    apply sim_call; [|apply sim_checked]. unfold do_request_named. destruct (has_service _ _); [|apply sim_raise].
    apply (sim_do_request k). now apply refresh_req.
  Qed.
  Lemma R_unused d1 d2 : forallb clean token_items = true -> forall c1 c2, sdb c1 = d1 -> sdb c2 = d2 -> Rdb d1 d2 -> unused_header c1 k = unused_header c2 k.
  Proof. intros CI c1 c2 <- <- H. unfold unused_header, bearer_header, find_token. cbn [dget rbind String.eqb eqs Ascii.eqb Bool.eqb]. now rewrite (H_mult _ CI _ _ _ _ _ H). Qed.
  Lemma sim_userinfo_post agg x : forallb clean token_items = true -> sim false (userinfo_post_parse agg x k) any.
  Proof.
    intros CI. unfold userinfo_post_parse. eapply sim_bind with (Q := any).
    { unfold read_db. apply sim_read; [|intros; exact I]. intros c1 c2 C. apply (H_mult _ CI). exact (proj1 C). }
    intros args _. eapply sim_bind with (Q := any); [apply sim_lift; intros; exact I|]. intros _ _.
    eapply sim_bind with (Q := any).
    { apply sim_read; [|intros; exact I]. intros c1 c2 C. destruct (dget "_claim_sources" x) as [[| | | | |src]|]; try reflexivity.
      now rewrite (R_unused _ _ CI c1 c2 eq_refl eq_refl (proj1 C)). }
    intros r _. eapply sim_bind with (Q := any); [apply sim_store; discriminate|]. intros _ _. now apply sim_ret.
  Qed.
  Lemma sim_userinfo_post_empty agg x : sim false (userinfo_post_parse agg x "") any.
  Proof.
    intros c1 c2 C. unfold userinfo_post_parse, bind, read_db.
    destruct C as (R & C1 & C2). destruct (H_empty _ _ R) as [D1 D2].
    unfold multiple_extend_request_args. rewrite D1, D2. cbn.
    split; [now left|]. split; [split; auto|discriminate].
  Qed.
  Lemma userinfo_req W cl tok : forallb clean token_items = true -> tame W ->
    P_Sim.req_sim Rdb c00 k (userinfo_svc W cl) [("access_token", VStr tok)] kwk.
  Proof.
    intros CI (T1 & _).
    split; [reflexivity|]. split; [reflexivity|]. split; [reflexivity|]. split; [reflexivity|]. split; [|split; [apply T1|split; [|split]]].
    - apply sim_construct with (QA := fun a => dhas "access_token" a = true) (QR := any); [|reflexivity|intros; exact I|intros; now apply sim_ret].
      apply (sim_pre_state true (userinfo_svc W cl) _ (fun a => dhas "access_token" a = true)); [reflexivity|]. intros m Hm a p kw' Hkw Ha. cbn in Hm. destruct Hm as [<-|[<-|[]]].
      + unfold userinfo_pre. rewrite Ha. now apply (sim_ret true (a, p)).
      + now apply (sim_carry true a p kw' (fun a => dhas "access_token" a = true)).
    - intros x. apply sim_userinfo_post; exact CI.
    - intros x. apply sim_userinfo_post_empty.
    - intros x. now apply sim_ret.
  Qed.
  Lemma sim_user_info W cl tok : forallb clean token_items = true -> tame W -> sim true (get_user_info W cl k tok) any.
  Proof.
    intros CI T. unfold get_user_info. eapply sim_bind with (Q := any).
    { destruct (tok =?s ""); [|now apply sim_ret]. eapply sim_bind with (Q := any); [|intros _ _; now apply sim_ret].
      unfold read_db. apply sim_read; [|intros; exact I]. intros c1 c2 C. apply (H_mult _ CI). exact (proj1 C). }
    intros _ _. apply sim_call; [|apply sim_checked]. unfold do_request_named. destruct (has_service _ _); [|apply sim_raise].
    apply (sim_do_request k). now apply userinfo_req.
  Qed.
  Lemma sim_logout W cl uri : forallb clean token_items = true -> sim true (logout W cl k uri) any.
  Proof.
    intros CI. unfold logout. destruct (has_service _ _); [|apply sim_raise].
    apply sim_grp; [reflexivity|reflexivity|reflexivity|].
    apply sim_construct with (QA := any) (QR := any); [|reflexivity|intros; exact I|intros; now apply sim_ret].
    apply sim_pre_state; [exact I|]. intros m Hm a p kw' Hkw _. cbn in Hm.
    assert (KS : kw_state kw' = Ok k) by (unfold kw_state, dict_get; now rewrite Hkw).
    destruct Hm as [<-|[<-|[<-|[]]]].
    - unfold end_id_token_hint. apply sim_read; [|intros; exact I]. intros c1 c2 C. rewrite KS. cbn [rbind]. now rewrite (H_mult _ CI _ _ _ _ _ (proj1 C)).
    - unfold end_post_logout_uri. apply sim_ctx_any. reflexivity.
    - unfold end_add_state. rewrite KS. destruct (dget "state" (dsetdefault "state" (VStr (e_lstate W)) a)) as [[| | |ls| |]|]; try apply sim_raise.
      eapply sim_bind; [apply sim_bindx, in_logout|]. intros _ _. now apply sim_ret.
  Qed.

  (** ** the authorization response *)
  Lemma post_parse_state resp st c m c' : oidc_authz_post_parse resp st c = (Ok m, c') -> dget "state" m = dget "state" resp.
  Proof.
    unfold oidc_authz_post_parse, bind. destruct (oauth2_authz_post_parse resp st c) as [[r0|e] c1] eqn:E; [|discriminate].
    assert (A : dget "state" r0 = dget "state" resp).
    { unfold oauth2_authz_post_parse in E. destruct (dhas "scope" resp); [injection E as <- _; auto|].
      destruct (st =?s ""); [injection E as <- _; auto|]. destruct (get_item _ _ _ _) as [it|]; [|discriminate].
      injection E as <- _. destruct (dget "scope" it); [|auto]. now rewrite dget_dset_neq by discriminate. }
    intros H. rewrite <- A. enough (m = r0) by (subst m; auto). clear A. destruct (dget (verified "id_token") r0) as [idt|] eqn:Ei; [|injection H as <- _; reflexivity].
    destruct (truthy idt); [|injection H as <- _; reflexivity]. destruct (dget "state" r0) as [[| | |s| |]|]; try discriminate.
    destruct (get_item _ _ _ _) as [rq|]; [|discriminate]. destruct (dget "nonce" rq) as [n|]; [|injection H as <- _; reflexivity].
    destruct (truthy n); [|injection H as <- _; reflexivity]. destruct idt; try discriminate.
    destruct (dget "nonce" d) as [w|]; [|discriminate]. destruct (truthy w); [|discriminate]. destruct (val_eqb n w); [|discriminate].
    injection H as <- _. reflexivity.
  Qed.
  Lemma parse_state W r0 c m c' : tame W -> parse_deserialised (e_vrf W "authorization") oidc_authz_post_parse r0 "" c = (Ok m, c') ->
    dget "state" m = dget "state" r0.
  Proof.
    intros (_ & T2 & _). unfold parse_deserialised, bind. destruct (is_error_message r0).
    - cbn. destruct r0; [discriminate|]. now intros [= <- _].
    - destruct (e_vrf W "authorization" c r0) as [v|] eqn:Ev; [|discriminate]. destruct (oidc_authz_post_parse v "" c) as [[m1|] c1] eqn:Ep; [|discriminate].
      destruct m1; [discriminate|]. intros [= <- _]. now rewrite (post_parse_state _ _ _ _ _ Ep), (T2 _ _ _ Ev).
  Qed.
  Definition for_k (m : msg) : Prop := forall s, dget "state" m = Some (VStr s) -> s = k.
  Lemma sim_post_parse w resp : clean "auth_request" = true -> for_k resp -> sim w (oidc_authz_post_parse resp "") any.
  Proof.
    intros CQ F. unfold oidc_authz_post_parse. eapply sim_bind with (Q := for_k).
    { unfold oauth2_authz_post_parse. destruct (dhas "scope" resp); now apply sim_ret. }
    intros r Fr. destruct (dget (verified "id_token") r) as [idt|]; [|now apply sim_ret]. destruct (truthy idt); [|now apply sim_ret].
    destruct (dget "state" r) as [[| | |s| |]|] eqn:Es; try apply sim_raise. rewrite (Fr _ Es) in *. clear s Es Fr.
    intros c1 c2 C. rewrite (H_item _ CQ _ _ _ (proj1 C)).
    assert (P : forall x : res msg, agree w x x /\ Rc c1 c2 /\ (forall a, x = Ok a -> any a)) by (intros x; split; [now left|]; split; [exact C|intros; exact I]).
    destruct (get_item (sdb c2) _ _ _) as [rq|e]; [|apply (P (Err e))].
    destruct (dget "nonce" rq) as [n|]; [|apply (P (Ok r))]. destruct (truthy n); [|apply (P (Ok r))].
    destruct idt; try apply (P (Err AttributeError)).
    destruct (dget "nonce" d) as [m|]; [|apply (P (Err _))]. destruct (truthy m); [|apply (P (Err _))].
    destruct (val_eqb n m); [apply (P (Ok r))|apply (P (Err _))].
  Qed.
  Lemma expires_state now resp r : add_expires_at now resp = Ok r -> dget "state" r = dget "state" resp.
  Proof.
    unfold add_expires_at. destruct (dget "expires_in" resp) as [v|]; [|now intros [= <-]].
    destruct (to_int v); [|discriminate]. intros [= <-]. now rewrite dget_dset_neq by discriminate.
  Qed.
  Lemma sim_finalize_auth W iss resp : clean "auth_request" = true -> tame W -> state_of resp = Some k ->
    sim true (finalize_auth (e_vrf W "authorization") (e_now W) iss resp) (fun m => dget "state" m = Some (VStr k)).
  Proof.
    intros CQ T S. unfold finalize_auth, state_of in *. destruct (msg_new cAuthzResponse resp) as [r0|]; [|apply sim_raise].
    assert (S0 : dget "state" r0 = Some (VStr k)) by (destruct (dget "state" r0) as [[| | |s| |]|]; try discriminate; now injection S as ->).
    assert (F0 : for_k r0) by (intros s; rewrite S0; now intros [= <-]).
    eapply sim_bind with (Q := fun m => dget "state" m = Some (VStr k)).
    { assert (X : sim true (parse_deserialised (e_vrf W "authorization") oidc_authz_post_parse r0 "") any).
      { unfold parse_deserialised. eapply sim_bind with (Q := any); [|intros r _; destruct r; [apply sim_raise|now apply sim_ret]].
        destruct (is_error_message r0); [now apply sim_ret|]. intros c1 c2 C. destruct (R_ctx _ _ C) as [d Hd].
        assert (EV : e_vrf W "authorization" c2 r0 = e_vrf W "authorization" c1 r0) by (rewrite Hd; apply (proj1 T)). rewrite EV.
        destruct (e_vrf W "authorization" c1 r0) as [v|e] eqn:Ev; [|apply (sim_raise true e any c1 c2 C)].
        apply sim_post_parse; [exact CQ| |exact C]. intros s. rewrite (proj1 (proj2 T) _ _ _ Ev). apply F0. }
      intros c1 c2 C. destruct (X c1 c2 C) as (X1 & X2 & _). split; [exact X1|]. split; [exact X2|]. intros m Hm.
      destruct (parse_deserialised _ _ r0 "" c1) as [x c1'] eqn:E. cbn in Hm. subst x. now rewrite (parse_state _ _ _ _ _ T E). }
    intros m Sm. destruct (is_error_message m); [now apply sim_ret|]. rewrite Sm.
    intros c1 c2 C. rewrite (H_iss _ _ (proj1 C)).
    assert (P : forall e, agree true (A := msg) (Err e) (Err e) /\ Rc c1 c2 /\ (forall a, Err e = Ok a -> dget "state" a = Some (VStr k))) by (intros e; split; [now left|]; split; [exact C|discriminate]).
    destruct (get_iss (sdb c2) k) as [i|e]; [|destruct e; apply P]. destruct (val_eqb i (VStr iss)); [|apply (P ValueError)].
    clear P. revert c1 c2 C.
    match goal with |- forall c1 c2, Rc c1 c2 -> agree ?w (fst (?f c1)) _ /\ _ => change (sim w f (fun m => dget "state" m = Some (VStr k))) end.
    eapply sim_bind with (Q := fun m => dget "state" m = Some (VStr k)).
    { unfold authz_update_service_context. destruct (add_expires_at (e_now W) m) eqn:Ea; [|apply sim_raise].
      eapply sim_bind; [apply sim_store; discriminate|]. intros _ _. apply sim_ret. now rewrite (expires_state _ _ _ Ea). }
    intros r Sr. eapply sim_bind; [apply sim_store; discriminate|]. intros _ _. now apply sim_ret.
  Qed.
  Lemma sim_endpoint W cl : clean "auth_request" = true -> clean "auth_response" = true -> clean "pkce" = true -> tame W -> sim true (tokens_from_endpoint W cl k) any.
  Proof.
    intros CQ CR CP T. unfold tokens_from_endpoint. eapply sim_bind; [now apply sim_get_tokens|]. intros r _.
    eapply sim_bind with (Q := any); [apply sim_lift; intros; exact I|]. intros a _. now apply sim_ret.
  Qed.
  Lemma sim_bind_value x v : In x kinds -> sim true (bind_value x v k) any.
  Proof. intros H. unfold bind_value. destruct v; try apply sim_raise. now apply sim_bindx. Qed.
  Lemma sim_access W cl m collect : clean "auth_request" = true -> clean "auth_response" = true -> clean "pkce" = true -> tame W ->
    sim true (get_access_and_id_token W cl m k collect) any.
  Proof.
    intros CQ CR CP T. unfold get_access_and_id_token. eapply sim_bind with (Q := any).
    { unfold read_db. apply sim_read; [|intros; exact I]. intros c1 c2 C. apply (H_item _ CQ). exact (proj1 C). }
    intros rq _. eapply sim_bind with (Q := any); [apply sim_lift; intros; exact I|]. intros rt _.
    eapply sim_bind with (Q := any); [apply sim_lift; intros; exact I|]. intros idt _.
    destruct (one_of rt _).
    - eapply sim_bind with (Q := any); [apply sim_lift; intros; exact I|]. intros a _. destruct collect; [now apply sim_endpoint|now apply sim_ret].
    - destruct (one_of rt _); [now apply sim_endpoint|now apply sim_ret].
  Qed.
  (** finalize after the authorization response and the tokens *)
  Definition finish (W : env) (cl : client) (m : msg) (st : string) (t : tokens) : M final :=
    info <- (if has_service cl "userinfo" && truthy (t_access t) then
               match t_access t with
               | VStr a => r <- get_user_info W cl st a ;; ret (msg_of r)
               | _ => raise OtherError
               end
             else match t_id t with
                  | VDict (kv :: r) => ret (userinfo_in_id_token (kv :: r))
                  | _ => ret []
                  end) ;;
    bind_subject (t_id t) info st ;;;
    ret (FOk info (VStr st) (t_access t) (t_id t)
           (match dget "session_state" m with Some v => v | None => VStr "" end)).
  Lemma sim_finish W cl m t : forallb clean token_items = true -> tame W -> sim true (finish W cl m k t) any.
  Proof.
    intros CI T. unfold finish. eapply sim_bind with (Q := any).
    { destruct (_ && _).
      - destruct (t_access t); try apply sim_raise. eapply sim_bind with (Q := any); [now apply sim_user_info|]. intros r _. now apply sim_ret.
      - destruct (t_id t) as [| | | | |[|? ?]]; now apply sim_ret. }
    intros info _. eapply sim_bind with (Q := any); [|intros _ _; now apply sim_ret].
    assert (B : sim true (s <- lift (dict_get "sub" info) ;; bind_value "subject id" s k) any).
    { eapply sim_bind with (Q := any); [apply sim_lift; intros; exact I|]. intros v _. apply sim_bind_value, in_sub. }
    unfold bind_subject. destruct (t_id t) as [| | | | |[|kv r]]; try exact B.
    eapply sim_bind with (Q := any); [now apply sim_ctx_any|]. intros c0 _. eapply sim_bind with (Q := any).
    { destruct c0; [|now apply sim_ret]. destruct (dget "sid" (kv :: r)); [|now apply sim_ret]. apply sim_bind_value, in_sid. }
    intros _ _. eapply sim_bind with (Q := any); [apply sim_lift; intros; exact I|]. intros v _. apply sim_bind_value, in_sub.
  Qed.
  Lemma sim_finalize W cl iss resp collect : (forall t, clean t = true) -> tame W -> state_of resp = Some k -> sim true (finalize W cl iss resp collect) any.
  Proof.
    intros CA T S. unfold finalize. eapply sim_bind; [now apply sim_finalize_auth|]. intros m Sm.
    destruct (is_error_message m).
    { eapply sim_bind with (Q := any); [apply sim_lift; intros; exact I|]. intros s _.
      eapply sim_bind with (Q := any); [apply sim_lift; intros; exact I|]. intros e _. now apply sim_ret. }
    cbn in Sm. rewrite Sm. eapply sim_bind with (Q := any); [apply sim_access; auto|].
    intros t _. apply (sim_finish W cl m t); [|exact T]. apply forallb_forall. auto.
  Qed.
End Session.
