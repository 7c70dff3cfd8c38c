(** Histories of logins with the plain OAuth2 services. *)
From Verif Require Import Base BaseP Json JsonP Msg M_State S_State P_State M_Ctx M_Codec M_Authz M_ClientAuth
  M_Service M_Token M_Handler M_OAuth S_Service S_Token S_Handler S_Flow S_Trace S_OAuth P_Ctx P_Authz P_Codec P_ClientAuth P_Service P_Wire
  P_Token P_Handler P_Flow P_Token2 P_Trace P_Flow2 P_Handler2 P_Handler3 P_Handler4 P_OAuth.

(** what a call may write *)
Definition at_session (st : string) (ts : list string) (o : op) : Prop :=
  match o with Store _ _ t k => k = st /\ In t ts | _ => False end.
Definition init_opo (c0 : ctx) (W : env) (o : op) : Prop :=
  match o with
  | Create rnd iss key => created_key rnd key = e_state W /\ iss = issuer c0
  | Store _ _ t k => k = e_state W /\ In t ["auth_request"; "pkce"]
  | Bind x n k => k = e_state W /\ x = "nonce" /\ n = e_nonce W
  | Remove _ => False
  end.
Definition answer_opo (o : op) : Prop :=
  match o with Store _ _ t _ => In t response_items | Bind x _ _ => x = "subject id" \/ x = "session id" | _ => False end.
Definition ocall_op (c0 : ctx) (o : ocall) : op -> Prop :=
  match o with
  | OInit W _ _ => init_opo c0 W
  | OFinalize _ _ _ _ | OFinalizeAuth _ _ _ => answer_opo
  | OTokens _ st => at_session st ["token_response"]
  | OUserInfo _ st _ => at_session st ["user_info"]
  | OClear st => fun x => x = Remove st
  end.

Section Writes.
  Variable c00 : ctx.
  Notation writes := (writes rnd32 c00).
  Ltac wb := eapply (w_bind rnd32 rnd32_family c00).
  Ltac wr := apply (w_raise rnd32 c00).

  Lemma ow_post_parse (P : op -> Prop) (m : msg) st : writes P (pass m st) any.
  Proof. now apply w_any_pure. Qed.
  Lemma ow_store_token cls now resp st : rnd32 st -> writes (at_session st ["token_response"]) (store_token_of cls now resp st) any.
  Proof.
    intros Hk. unfold store_token_of. destruct (add_expires_at now resp); [|wr].
    wb; [apply w_store; [assumption|discriminate|split; [reflexivity|cbn; auto]]|]. intros [] _. now apply w_ret.
  Qed.
  Lemma ow_tokens p W cl st : rnd32 st -> writes (at_session st ["token_response"]) (oauth_tokens p W cl st) any.
  Proof.
    intros Hk c C. unfold oauth_tokens, get_tokens_with, writes_at.
    match goal with |- context [match ?x with Ok _ => _ | Err _ => _ end] => destruct x as [[args am]|e] end.
    2:{ apply (w_raise rnd32 c00 (at_session st ["token_response"]) e any c C). }
    revert C. revert c. change (writes (at_session st ["token_response"])
      (r <- do_request_named W cl (oauth_token_svc p W cl) args am [("state", VStr st)];; (if is_error_response r then raise OidcServiceError else ret r)) any).
    wb; [|intros r _; destruct (is_error_response r); [wr|now apply w_ret]].
    unfold do_request_named. destruct (has_service _ _); [|wr].
    destruct (oauth_token_fields p W cl) as (_ & _ & F1 & _ & _ & _ & F2 & _ & _ & F3 & _ & F6 & F4 & F5).
    generalize dependent (oauth_token_svc p W cl). intros s F1 F2 F3 F6 F4 F5.
    eapply w_do_request with (R := any); [apply rnd32_family|].
    split; [reflexivity|]. split; [exact F1|]. split; [|split; [intros; exact I|split; [|split]]].
    - apply w_construct; [apply rnd32_family| |].
      + rewrite F4. intros m Hm a q kw. destruct (cl_pkce cl); cbn in Hm; intuition (subst; apply w_any_pure; reflexivity).
      + rewrite F5. intros m Hm r kw. destruct (cl_pkce cl); cbn in Hm; intuition (subst; apply w_any_pure; reflexivity).
    - rewrite F2. intros x Hx. apply ow_post_parse.
    - rewrite F2. intros x Hx. apply ow_post_parse.
    - rewrite F3. intros x Hx. now apply ow_store_token.
  Qed.
  Lemma ow_userinfo_post cls hdr agg x st : rnd32 st -> writes (at_session st ["user_info"]) (userinfo_post_parse_of cls hdr agg x st) any.
  Proof.
    intros Hk. unfold userinfo_post_parse_of. wb; [now apply w_any_pure|]. intros args _.
    wb; [apply w_lift; intros; exact I|]. intros _ _.
    wb; [now apply w_any_pure|]. intros r _.
    wb; [apply w_store; [assumption|discriminate|split; [reflexivity|cbn; auto]]|]. intros _ _. now apply w_ret.
  Qed.
  Lemma ow_userinfo_post_empty (P : op -> Prop) cls hdr agg x : writes P (userinfo_post_parse_of cls hdr agg x "") any.
  Proof.
    intros c C. unfold userinfo_post_parse_of.
    assert (E : forall ps ts, multiple_extend_request_args (sdb c) [] "" ps ts false = Err (KeyError "")).
    { intros. unfold multiple_extend_request_args. now rewrite (closed_empty rnd32 rnd32_family _ (proj1 C)). }
    unfold writes_at, bind, read_db. rewrite E. intros r c' [= <- <-].
    split; [now rewrite set_db_same|]. split; [exists []; split; [constructor|reflexivity]|]. discriminate.
  Qed.
  Lemma ow_user_info p W cl st tok : rnd32 st -> writes (at_session st ["user_info"]) (oauth_user_info p W cl st tok) any.
  Proof.
    intros Hk. unfold oauth_user_info, get_user_info_with. wb.
    { destruct (tok =?s ""); [|now apply (w_ret _ _ _ _ any)]. wb; [now apply w_any_pure|]. intros _ _. now apply (w_ret _ _ _ _ any). }
    intros _ _. wb; [|intros r _; destruct (is_error_response r); [wr|now apply w_ret]].
    unfold do_request_named. destruct (has_service _ _); [|wr].
    eapply w_do_request with (R := any); [apply rnd32_family|].
    split; [reflexivity|]. split; [reflexivity|]. split; [|split; [intros; exact I|split; [|split]]].
    - apply w_construct; [apply rnd32_family| |].
      + intros m Hm a q kw. cbn in Hm; intuition (subst; apply w_any_pure; reflexivity).
      + intros m Hm. contradiction.
    - intros x _. now apply ow_userinfo_post.
    - intros x _. apply ow_userinfo_post_empty.
    - intros x _. now apply w_any_pure.
  Qed.
  Lemma ow_finalize_auth W cl iss resp : writes answer_opo (oauth_finalize_auth W cl iss resp) any.
  Proof.
    unfold oauth_finalize_auth, finalize_auth_with.
    change (s_rcls (oauth_authz_svc W cl)) with cOAuth2AuthzResponse. change (s_vrf (oauth_authz_svc W cl)) with (e_vrf W "authorization").
    change (s_post_parse (oauth_authz_svc W cl)) with oauth2_authz_post_parse. change (s_update (oauth_authz_svc W cl)) with (oauth2_authz_update (e_now W)).
    destruct (msg_new cOAuth2AuthzResponse resp) as [r0|]; [|wr].
    wb.
    { apply w_any_pure. intros c.
      destruct (parse_deserialised (e_vrf W "authorization") oauth2_authz_post_parse r0 "" c) as [x c1] eqn:E.
      apply parse_deserialised_pure in E; [subst; reflexivity|exact oauth2_post_parse_pure]. }
    intros m _. destruct (is_error_message m); [now apply w_ret|].
    destruct (dget "state" m) as [[| | |s| |]|]; try wr.
    intros c C. unfold writes_at. assert (PURE : forall e, writes_at rnd32 answer_opo (raise (A := msg) e) any c) by (intros e; now apply (w_raise rnd32 c00)).
    destruct (get_iss (sdb c) s) as [i|e] eqn:Ei; [|destruct e; apply (PURE _)].
    destruct (val_eqb i (VStr iss)); [|apply (PURE ValueError)].
    assert (Hk : rnd32 s) by (eapply closed_iss; [exact rnd32_no_dict|exact (proj1 C)|exact Ei]).
    revert C. revert c PURE Ei. intros c _ _. revert c.
    change (writes answer_opo (r <- oauth2_authz_update (e_now W) m s;; on_db (store_item (IMsg cOAuth2AuthzResponse r) "auth_response" s);;; ret r) any).
    wb.
    { unfold oauth2_authz_update. destruct (add_expires_at (e_now W) m); [|wr].
      wb; [apply w_store; [assumption|discriminate|cbn; auto]|]. intros _ _. now apply (w_ret _ _ _ _ any). }
    intros r _. wb; [apply w_store; [assumption|discriminate|cbn; auto]|]. intros _ _. now apply w_ret.
  Qed.
  Lemma ow_endpoint p W cl st : rnd32 st -> writes answer_opo (tokens_from_endpoint_with (oauth_token_svc p W cl) W cl st) any.
  Proof.
    intros Hk. unfold tokens_from_endpoint_with. wb.
    { eapply w_weaken; [now apply ow_tokens|]. intros [| ? ? t k| |]; cbn; try contradiction. intros [_ [<-|[]]]. auto. }
    intros r _. wb; [apply w_lift; intros; exact I|]. intros a _. now apply w_ret.
  Qed.
  Lemma ow_finalize p W cl iss resp collect : writes answer_opo (oauth_finalize p W cl iss resp collect) any.
  Proof.
    intros c C. unfold oauth_finalize, finalize_with. eapply (wa_bind rnd32 rnd32_family c00); [exact C|now apply ow_finalize_auth|].
    intros m c1 E _ C1. destruct (is_error_message m) eqn:Ee.
    { revert c1 C1 E. intros c1 C1 _. revert c1 C1.
      match goal with |- forall c1, good _ _ c1 -> writes_at _ ?P ?f _ c1 => change (writes P f any) end.
      wb; [apply w_lift; intros; exact I|]. intros s _.
      wb; [apply w_lift; intros; exact I|]. intros e _. now apply w_ret. }
    destruct (dget "state" m) as [[| | |st| |]|] eqn:Est; try (now apply (w_raise rnd32 c00)).
    assert (Hk : rnd32 st).
    { pose proof (oauth_finalize_auth_spec _ _ _ _ _ _ _ E) as F. cbn in F. destruct F as [[F _]|[_ (s & F1 & F2 & _)]]; [congruence|].
      rewrite Est in F1. injection F1 as <-. eapply closed_iss; [exact rnd32_no_dict|exact (proj1 C)|exact F2]. }
    revert c1 C1 E. intros c1 C1 _. revert c1 C1.
    match goal with |- forall c1, good _ _ c1 -> writes_at _ ?P ?f _ c1 => change (writes P f any) end.
    wb.
    { cbn [pt_token oauth_parts]. unfold get_access_and_id_token_with. wb; [now apply w_any_pure|]. intros rq _.
      wb; [apply w_lift; intros; exact I|]. intros rt _.
      wb; [apply w_lift; intros; exact I|]. intros idt _.
      assert (TE := ow_endpoint p W cl st Hk).
      destruct (one_of rt _).
      - wb; [apply w_lift; intros; exact I|]. intros a _. destruct collect; [exact TE|now apply w_ret].
      - destruct (one_of rt _); [exact TE|now apply w_ret]. }
    intros t _. wb.
    { cbn [pt_userinfo oauth_parts]. destruct (_ && _).
      - destruct (t_access t) as [| | |a| |]; try wr. wb.
        + eapply w_weaken; [now apply ow_user_info|]. intros [| ? ? t0 k| |]; cbn; try contradiction. intros [_ [<-|[]]]. auto.
        + intros r _. now apply (w_ret _ _ _ _ any).
      - destruct (t_id t) as [| | | | |[|? ?]]; now apply (w_ret _ _ _ _ any). }
    intros info _. wb; [|intros _ _; now apply w_ret].
    unfold bind_subject.
    assert (B1 : forall d, writes answer_opo (s <- lift (dict_get "sub" d) ;; bind_value "subject id" s st) any).
    { intros d. wb; [apply w_lift; intros; exact I|]. intros v _. apply w_bind_value; [assumption|apply in_sub|]. cbn. auto. }
    destruct (t_id t) as [| | | | |[|kv r]] eqn:Ti; try apply B1.
    wb; [now apply w_any_pure|]. intros c0 _.
    wb; [|intros _ _; apply B1].
    destruct c0; [|now apply (w_ret _ _ _ _ any)]. destruct (dget "sid" (kv :: r)); [|now apply (w_ret _ _ _ _ any)].
    apply w_bind_value; [assumption|apply in_sid|]. cbn. auto.
  Qed.
  Lemma ow_authz_construct W cl args beh st : st = e_state W -> rnd32 st -> plain_conf (conf_of cl "authorization") -> no_state beh ->
    NoDup (dkeys args) -> dget "state" args = Some (VStr st) ->
    writes (init_opo c00 W) (construct (oauth_authz_svc W cl) args (kwb beh)) any.
  Proof.
    intros Est Hk [PC1 PC2] NS N S0. set (has := fun ap : dict val * dict val => NoDup (dkeys (fst ap)) /\ dget "state" (fst ap) = Some (VStr st) /\ snd ap = []).
    assert (KS : dget "state" (kwb beh) = None) by (destruct beh; reflexivity).
    destruct (oauth_authz_fields W cl) as (AF1 & AF2 & AF3 & AF4 & AF5 & _).
    generalize dependent (oauth_authz_svc W cl). intros s AF1 AF2 AF3 AF4 AF5. unfold construct. wb.
    { instantiate (1 := has). unfold do_pre_construct. rewrite AF1, method_args_plain by (rewrite AF5; exact PC1). cbn [app run_pre].
      wb.
      { instantiate (1 := has). apply w_pure.
        - intros c. unfold lift_pre, bind, pre_construct_pick_redirect_uri. now destruct (pick_redirect_uri c (Some args) None).
        - intros c a. unfold lift_pre, bind, pre_construct_pick_redirect_uri. destruct (pick_redirect_uri c (Some args) None); [|discriminate]. intros [= <-].
          split; [now apply NoDup_dset|]. split; [|reflexivity]. cbn [fst]. now rewrite dget_dset_neq by discriminate. }
      intros [b1 p1] (L1 & L2 & L3). cbn [fst snd] in *. wb.
      { instantiate (1 := has). apply w_pure; [reflexivity|]. intros c a. unfold set_state_parameter, get_state_parameter. rewrite KS, L2. cbn. intros [= <-].
        split; [now apply NoDup_dset|]. split; [apply dget_dset_eq|exact L3]. }
      intros [b2 p2] (M1 & M2 & M3). cbn [fst snd] in *.
      destruct (cl_pkce cl); [|apply w_ret; now split]. cbn [run_pre].
      wb; [|intros [b4 p4] H4; apply w_ret; exact H4].
      intros c C. unfold add_code_challenge, writes_at.
      match goal with |- context [match ?x with Ok _ => _ | Err _ => _ end] => destruct x as [[v m]|e] end; [|apply (w_raise rnd32 c00 (init_opo c00 W) e _ c C)].
      rewrite M2. revert c C.
      match goal with |- forall c, good _ _ c -> forall r c', ?f c = _ -> _ => change (writes (init_opo c00 W) f has) end.
      wb; [apply w_store; [assumption|discriminate|split; [exact Est|cbn; auto]]|]. intros _ _. apply w_ret.
      split; [cbn [fst]; auto using NoDup_dset|]. split; [|exact M3]. cbn [fst]. now rewrite !dget_dset_neq by discriminate. }
    intros [a1 post] (L1 & L2 & L3). cbn [fst snd] in *. rewrite KS. subst post. wb.
    { instantiate (1 := fun o => NoDup (dkeys o) /\ dget "state" o = Some (VStr st)). apply w_pure; [reflexivity|]. intros c out H. cbn [fst] in H. unfold gather_request_args in H.
      destruct (gather_loop s c (c_par (s_cls s)) a1) as [o1|] eqn:E5; [|discriminate]. cbn [rbind] in H.
      destruct (gather_loop_get _ _ _ _ _ E5) as [NO GO]. specialize (NO L1). rewrite AF3 in H. unfold authz_gather in H.
      assert (SO : dget "state" o1 = Some (VStr st)) by (now rewrite GO, L2).
      destruct (dhas "redirect_uri" o1); [injection H as <-; auto|]. destruct (redirect_uris c); [discriminate|]. injection H as <-.
      split; [now apply NoDup_dset|]. now rewrite dget_dset_neq by discriminate. }
    intros out (NO & SO). wb.
    { instantiate (1 := fun r => dget "state" r = Some (VStr st)).
      apply w_lift. intros req Hr. rewrite AF4 in Hr. rewrite (msg_new_get _ _ _ NO Hr), SO. destruct rnd32_family as (K1 & _).
      pose proof (K1 _ Hk). destruct st; [easy|reflexivity]. }
    intros req SR. unfold do_post_construct. rewrite AF2, method_args_plain by (rewrite AF5; exact PC2). cbn [run_post].
    eapply (w_bind rnd32 rnd32_family c00) with (Q := any); [|intros q _; now apply w_ret]. fold (post_args (kwb beh) []). unfold store_auth_request, get_state_parameter.
    rewrite (post_no_state _ NS), SR. cbn [rbind key_arg]. wb.
    { instantiate (1 := fun k => k = st). apply w_lift. now intros a [= <-]. }
    intros k ->. wb; [apply w_store; [assumption|discriminate|split; [exact Est|cbn; auto]]|]. intros _ _. now apply w_ret.
  Qed.
  Lemma ow_init W cl reqs beh : rnd32 (e_state W) -> plain_conf (conf_of cl "authorization") -> no_state beh ->
    writes (init_opo c00 W) (oauth_init W cl reqs beh) any.
  Proof.
    intros Hk PC NS. unfold oauth_init, init_authorization_with. wb.
    { instantiate (1 := fun a => NoDup (dkeys a)). apply w_pure; [reflexivity|]. intros c a Ha. cbn in Ha. now destruct (authz_args_spec _ _ _ _ Ha) as (N & _). }
    intros args N. wb.
    { instantiate (1 := fun i => i = issuer c00). intros c [_ C] r c' E. injection E as <- <-. split; [now rewrite set_db_same|]. split; [exists []; split; [constructor|reflexivity]|].
      intros a [= <-]. exact (f_equal issuer C). }
    intros iss ->. wb; [apply w_create; [exact Hk|split; reflexivity]|]. intros st Hst. cbn in Hst. subst st.
    wb; [apply w_bindx; [exact Hk|apply in_nonce|split; [reflexivity|split; reflexivity]]|]. intros _ _.
    eapply (w_bind rnd32 rnd32_family c00) with (Q := any); [|intros i _; now apply w_ret]. fold (kwb beh).
    apply w_grp; [apply rnd32_family|now destruct (oauth_authz_fields W cl) as (_ & _ & _ & _ & _ & _ & ? & _)|].
    apply ow_authz_construct with (st := e_state W); auto; [now apply NoDup_dset|apply dget_dset_eq].
  Qed.
End Writes.

(** ** histories *)
Lemma ocall_writes c0 p cl o c : plain_conf (conf_of cl "authorization") -> ocall_ok o -> closed rnd32 (sdb c) -> c = set_db (sdb c) c0 ->
  run_ocall p cl o c = set_db (sdb (run_ocall p cl o c)) c /\
  exists ops, Forall (fun x => op_ok rnd32 x /\ ocall_op c0 o x) ops /\ sdb (run_ocall p cl o c) = snd (crun (sdb c) ops).
Proof.
  intros PC Ho C EC.
  assert (G : forall A (m : M A) P Q, writes rnd32 c0 P m Q -> snd (m c) = set_db (sdb (snd (m c))) c /\
     exists ops, Forall (fun x => op_ok rnd32 x /\ P x) ops /\ sdb (snd (m c)) = snd (crun (sdb c) ops)).
  { intros A m P Q H. destruct (m c) as [r c'] eqn:E. destruct (H c (conj C EC) _ _ E) as (A1 & A2 & _). auto. }
  destruct o; cbn [run_ocall ocall_op ocall_ok] in *; eapply G.
  - destruct Ho. now apply ow_init.
  - apply ow_finalize.
  - apply ow_finalize_auth.
  - now apply ow_tokens.
  - now apply ow_user_info.
  - eapply w_remove; [exact Ho|reflexivity].
Qed.
Lemma ocalls_write_from c0 p cl os : plain_conf (conf_of cl "authorization") -> Forall ocall_ok os -> forall c, closed rnd32 (sdb c) -> c = set_db (sdb c) c0 ->
  run_ocalls p cl os c = set_db (sdb (run_ocalls p cl os c)) c /\
  exists ops, Forall (fun x => op_ok rnd32 x /\ exists o, In o os /\ ocall_op c0 o x) ops /\ sdb (run_ocalls p cl os c) = snd (crun (sdb c) ops).
Proof.
  intros PC Ho. induction Ho as [|o os H1 H2 IH]; intros c C EC.
  - cbn. split; [now rewrite set_db_same|]. exists []. split; [constructor|reflexivity].
  - change (run_ocalls p cl (o :: os) c) with (run_ocalls p cl os (run_ocall p cl o c)).
    destruct (ocall_writes c0 p cl o c PC H1 C EC) as (A1 & ops1 & A2 & A3).
    assert (C1 : closed rnd32 (sdb (run_ocall p cl o c))).
    { rewrite A3. apply closed_run; [apply rnd32_family|assumption|]. eapply Forall_impl; [|exact A2]. cbn; tauto. }
    assert (EC1 : run_ocall p cl o c = set_db (sdb (run_ocall p cl o c)) c0) by (rewrite A1, EC; reflexivity).
    destruct (IH _ C1 EC1) as (B1 & ops2 & B2 & B3). split; [rewrite B1, A1; reflexivity|].
    exists (ops1 ++ ops2). split; [|now rewrite crun_app, <- A3].
    apply Forall_app. split.
    + eapply Forall_impl; [|exact A2]. cbn. intros x [X1 X2]. split; [assumption|]. exists o. auto.
    + eapply Forall_impl; [|exact B2]. cbn. intros x [X1 (o' & X2 & X3)]. split; [assumption|]. exists o'. auto.
Qed.
Lemma ocalls_write p cl os : plain_conf (conf_of cl "authorization") -> Forall ocall_ok os -> forall c, closed rnd32 (sdb c) ->
  run_ocalls p cl os c = set_db (sdb (run_ocalls p cl os c)) c /\
  exists ops, Forall (fun x => op_ok rnd32 x /\ exists o, In o os /\ ocall_op c o x) ops /\ sdb (run_ocalls p cl os c) = snd (crun (sdb c) ops).
Proof. intros. apply ocalls_write_from; auto. now rewrite set_db_same. Qed.
Lemma oclosed_reach p cl os c : plain_conf (conf_of cl "authorization") -> Forall ocall_ok os -> closed rnd32 (sdb c) -> closed rnd32 (sdb (run_ocalls p cl os c)).
Proof.
  intros PC OK C. destruct (ocalls_write p cl os PC OK c C) as (_ & ops & F & ->). apply closed_run; [apply rnd32_family|assumption|].
  eapply Forall_impl; [|exact F]. cbn; tauto.
Qed.
Lemma ocalls_keep p cl os k t cc : plain_conf (conf_of cl "authorization") -> Forall ocall_ok os -> rnd32 k -> ~ In t response_items ->
  (forall o, In o os -> oleaves k o) -> forall c, closed rnd32 (sdb c) -> (exists s, get_state (sdb c) k = Ok s) ->
  get_item (sdb (run_ocalls p cl os c)) cc t k = get_item (sdb c) cc t k.
Proof.
  intros PC Ho Hk Ht Hl c C Hs. destruct (ocalls_write p cl os PC Ho c C) as (_ & ops & F & ->).
  refine (proj1 (item_stable rnd32 ops cc k t rnd32_family _ Hk _ (sdb c) Hs)).
  - eapply Forall_impl; [|exact F]. cbn. tauto.
  - intros x Hx. rewrite Forall_forall in F. destruct (F _ Hx) as (_ & o & Hin & Hc). specialize (Hl _ Hin).
    assert (AK : answer_opo x -> ~ overwrites x k t) by (destruct x; cbn; try tauto; intros A [_ <-]; now apply Ht).
    assert (SK : forall s ts, incl ts response_items -> at_session s ts x -> ~ overwrites x k t).
    { intros s ts I. destruct x; cbn; try tauto. intros [_ A] [_ <-]. now apply Ht, I. }
    destruct o; cbn [ocall_op oleaves] in *; auto.
    + destruct x as [rnd i key|? ? ? ?|? ? ?|?]; cbn in *; try tauto; [intuition congruence|intuition congruence].
    + eapply SK; [|exact Hc]. intros y [<-|[]]. cbn. auto.
    + eapply SK; [|exact Hc]. intros y [<-|[]]. cbn. auto.
    + subst x. cbn. assumption.
Qed.
Lemma osession_provenance p cl os c k i : plain_conf (conf_of cl "authorization") -> Forall ocall_ok os -> sdb c = [] ->
  get_iss (sdb (run_ocalls p cl os c)) k = Ok i ->
  i = VStr (issuer c) /\ exists W reqs beh, In (OInit W reqs beh) os /\ e_state W = k.
Proof.
  intros PC OK E H. assert (CL0 : closed rnd32 (sdb c)) by (rewrite E; apply closed_nil).
  pose proof (oclosed_reach p cl os c PC OK CL0) as CL.
  assert (K : rnd32 k) by (eapply closed_iss; [apply rnd32_no_dict|exact CL|exact H]).
  destruct (ocalls_write p cl os PC OK c CL0) as (_ & ops & F & D). rewrite E in D. rewrite D in H.
  assert (O1 : Forall (op_ok rnd32) ops) by (eapply Forall_impl; [|exact F]; cbn; tauto).
  destruct (store_observations rnd32 ops rnd32_family O1) as [_ S]. specialize (S k K).
  destruct (latest_iss (rev ops) k) as [j|] eqn:L; [|destruct S as [e S]; rewrite H in S; discriminate].
  destruct (latest_iss_create _ _ _ L) as (rnd & key & A & B). apply in_rev in A.
  rewrite Forall_forall in F. destruct (F _ A) as (_ & o & I & C). destruct o; cbn in C; try contradiction; [|discriminate].
  destruct C as [C1 C2]. rewrite H in S. split; [congruence|]. exists W, reqs, beh. split; [assumption|]. congruence.
Qed.
