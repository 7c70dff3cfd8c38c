(** Proofs for T_Begin.v: what is in the URL is what was stored. *)
From Verif Require Import Base BaseP Json JsonP Msg M_State S_State P_State M_Ctx M_Codec M_Authz M_ClientAuth M_Service M_Token M_Handler
  S_Service S_Token S_Handler S_Flow S_Trace S_Sched S_Retry P_Ctx P_Authz P_Codec P_ClientAuth P_Service P_Wire P_Token
  P_Token2 P_Handler P_Flow P_Trace P_Flow2 P_Handler2 P_Handler3 P_Handler4 P_Sim P_SimK P_Sched P_Retry S_Traffic S_Honest P_Honest P_Honest2 P_Honest3 P_Honest4
  S_Begin P_Begin.

Lemma form_has_one txt p v w : form_has txt p v -> form_has txt p w -> v = w.
Proof. unfold form_has. congruence. Qed.

Lemma fair_redirect W c reqs args u us : authz_request_args W c reqs = Ok args -> uniq reqs -> config_uniq c -> redirect_uris c = u :: us ->
  dget "redirect_uri" args = chosen c reqs "redirect_uri" (Some (VStr u)).
Proof.
  intros H U CU R. unfold authz_request_args in H.
  destruct (response_type_of c reqs) as [rt|] eqn:Er; cbn [rbind] in H; [|discriminate].
  destruct (pick_redirect_uri c (Some reqs) (Some rt)) as [ru|] eqn:Ep; cbn [rbind] in H; [|discriminate].
  destruct (dict_get "scope" (behaviour c)) as [sc|] eqn:Es; cbn [rbind] in H; [|discriminate].
  injection H as <-. rewrite !dget_dupdate. unfold chosen, configured, config_request_args. rewrite (dget_rev_NoDup _ _ U).
  unfold pick_redirect_uri in Ep. rewrite R in Ep. destruct (dget "redirect_uri" reqs) as [v|]; [reflexivity|]. injection Ep as <-.
  destruct (dget "request_args" (config c)) as [[| | | | |dd]|] eqn:Ed; try reflexivity.
  rewrite (dget_rev_NoDup _ _ (CU _ Ed)). now destruct (dget "redirect_uri" dd).
Qed.

Lemma url_and_store W cl reqs beh c u k c1 ep : rnd32 (e_state W) -> plain_conf (conf_of cl "authorization") -> (forall m v, e_hash W m v <> "") ->
  set_up cl c -> fair_args W c reqs -> no_request_object beh ->
  dget "authorization_endpoint" (provider_info c) = Some (VStr ep) -> u_query (urlsplit ep) = "" ->
  chosen c reqs "response_type" (first_response_type c) = Some (VStr "code") ->
  init_authorization W cl reqs beh c = (Ok (u, k), c1) ->
  exists rq, get_item (sdb c1) cAuthzRequest "auth_request" k = Ok rq /\ dget "response_type" rq = Some (VList [VStr "code"]) /\
    query_has u "state" k /\
    (forall ru, query_has u "redirect_uri" ru -> dget "redirect_uri" rq = Some (VStr ru) /\ ru <> "") /\
    (exists ru, query_has u "redirect_uri" ru) /\
    (forall n, query_has u "nonce" n -> get_state_by_nonce (sdb c1) n = Ok k) /\ (exists n, query_has u "nonce" n) /\
    (cl_pkce cl = true -> (exists ch meth, query_has u "code_challenge" ch /\ query_has u "code_challenge_method" meth) /\
       forall ch meth, query_has u "code_challenge" ch -> query_has u "code_challenge_method" meth ->
         dget "code_challenge" rq = Some (VStr ch) /\ dget "code_challenge_method" rq = Some (VStr meth)).
Proof.
  intros Hk PC HH (S1 & S2 & _ & (u0 & us & S4 & S4') & _ & (l0 & S6) & S7) (F1 & F2 & F3 & F4 & F5) NR EP Q RT H.
  destruct (init_spec rnd32 _ _ _ _ _ _ _ _ rnd32_family Hk PC HH H)
    as (E & args & req & ep' & A & B1 & B2 & B3 & B4 & B5 & B6 & B7 & B8 & B9 & B10 & B11 & B12 & _ & _ & C3 & C4 & C5).
  rewrite EP in B1. injection B1 as <-. destruct (C5 NR Q) as (X & _).
  assert (Kne : k <> "") by (rewrite E; apply rnd32_family; exact Hk).
  assert (T : forall p base, In p ["redirect_uri"; "response_type"; "nonce"; "client_id"] -> some_text base -> some_text (chosen c reqs p base)).
  { intros p base Hp Hb. rewrite chosen_some. destruct (chosen c reqs p None) as [v|] eqn:Ev; [exact (F4 p Hp v Ev)|exact Hb]. }
  assert (SKP : forall x, x <> "" -> skipped (VStr x) = false) by (intros [|]; easy).
  assert (RTA : dget "response_type" args = Some (VStr "code")) by eauto using chosen_response_type.
  assert (R1 : dget "response_type" req = Some (VList [VStr "code"])) by (rewrite (B10 _ RTA eq_refl); reflexivity).
  destruct (msg_new_total cAuthzRequest (msg_to_dict cAuthzRequest req) eq_refl) as [rq Hq].
  assert (G : get_item (sdb c1) cAuthzRequest "auth_request" k = Ok rq) by (rewrite B5; exact Hq).
  assert (ST : forall p v, mem_str p (c_sp cAuthzRequest) = false -> dget p req = Some (VStr v) -> v <> "" -> dget p rq = Some (VStr v)).
  { intros p v P1 P2 P3. eapply stored_req; eauto. }
  exists rq. split; [exact G|]. split.
  { rewrite (msg_new_get _ _ rq ltac:(rewrite ser_keys; exact B3) Hq), ser_get, R1. reflexivity. }
  split; [apply X; assumption|].
  assert (RU : exists ru, dget "redirect_uri" req = Some (VStr ru) /\ ru <> "").
  { destruct (T "redirect_uri" (Some (VStr u0))) as (ru & Er & Ne); [cbn; auto|exists u0; auto|]. exists ru. split; [|exact Ne].
    apply B12; [|now apply SKP]. rewrite <- Er. eapply fair_redirect; eauto. }
  destruct RU as (ru & RU & RUne).
  assert (NN : exists n l, dget "nonce" req = Some (VStr n) /\ n <> "" /\ get_state_by_nonce (sdb c1) n = Ok k /\ chosen c reqs "scope" (dget "scope" (behaviour c)) = Some (VList l)).
  { destruct (T "nonce" (Some (VStr (e_nonce W)))) as (n & En & Ne); [cbn; auto|exists (e_nonce W); auto|].
    assert (SL : exists l, chosen c reqs "scope" (dget "scope" (behaviour c)) = Some (VList l)).
    { rewrite chosen_some. destruct (chosen c reqs "scope" None) as [v|] eqn:Ev; [destruct (F5 _ eq_refl) as [l ->]; eauto|rewrite S6; eauto]. }
    destruct SL as (l & SL). exists n, l. split; [|split; [exact Ne|split; [|exact SL]]].
    - apply B8; [|now apply SKP]. rewrite <- En. eapply chosen_args; eauto.
    - eapply (own_nonce_bound W cl reqs beh c); eauto; reflexivity. }
  destruct NN as (n & l & N1 & N2 & N3 & _).
  split. { intros ru' Hr. assert (ru' = ru) by (eapply form_has_one; [exact Hr|apply X; assumption]). subst ru'. split; [apply ST; auto|exact RUne]. }
  split. { exists ru. apply X; assumption. }
  split. { intros n' Hn. assert (n' = n) by (eapply form_has_one; [exact Hn|apply X; assumption]). now subst n'. }
  split. { exists n. apply X; assumption. }
  intros CP. destruct (C4 CP) as (len & m & v & P1 & -> & P3 & P4 & P5 & _).
  assert (CHne : b64e (e_hash W m (unreserved (e_rand W) len)) <> "") by (apply b64e_nonempty; apply HH).
  assert (Mne : m <> "") by (intros ->; cbn in P3; intuition discriminate).
  assert (X1 := X _ _ P4 CHne). assert (X2 := X _ _ P5 Mne).
  split; [eexists; eexists; split; [exact X1|exact X2]|].
  intros ch meth Y1 Y2. pose proof (form_has_one _ _ _ _ Y1 X1) as ->. pose proof (form_has_one _ _ _ _ Y2 X2) as ->.
  split; (eapply ST; [reflexivity|eassumption|assumption]).
Qed.
