(** Proofs for T_Flow.v *)
From Verif Require Import Base BaseP Json JsonP Msg M_State S_State P_State M_Ctx M_Codec M_Authz M_ClientAuth
  M_Service M_Token M_Handler S_Service S_Token S_Handler S_Trace S_Flow P_Ctx P_Authz P_Codec P_ClientAuth P_Service P_Wire P_Token
  P_Handler P_Flow P_Token2 P_Trace.

Lemma msg_new_total cc d : c_json cc = [] -> exists m, msg_new cc d = Ok m.
Proof.
  intros H. unfold msg_new. generalize (c_default cc). induction d as [|[k v] d IH]; intros m0; simpl; [eauto|].
  destruct (skipped v); [apply IH|]. unfold msg_set. rewrite H. simpl.
  destruct (mem_str k (c_sp cc)); [destruct v|]; apply IH.
Qed.
Lemma chosen_args W c reqs args p d0 : authz_request_args W c reqs = Ok args -> uniq reqs -> config_uniq c ->
  (p = "nonce" /\ d0 = Some (VStr (e_nonce W)) \/ p = "scope" /\ d0 = dget "scope" (behaviour c)) ->
  dget p args = chosen c reqs p d0.
Proof.
  intros H U CU Hp. unfold authz_request_args in H.
  destruct (response_type_of c reqs) as [rt|] eqn:Er; simpl in H; [|discriminate].
  destruct (pick_redirect_uri c (Some reqs) (Some rt)) as [ru|] eqn:Ep; simpl in H; [|discriminate].
  destruct (dict_get "scope" (behaviour c)) as [sc|] eqn:Es; simpl in H; [|discriminate].
  injection H as <-.
  assert (Hsc : dget "scope" (behaviour c) = Some sc). { unfold dict_get in Es. destruct (dget "scope" (behaviour c)); congruence. }
  rewrite !dget_dupdate. unfold chosen, configured, config_request_args.
  rewrite (dget_rev_NoDup _ _ U).
  destruct (dget p reqs); [reflexivity|].
  destruct (dget "request_args" (config c)) as [[| | | | |dd]|] eqn:Ed; simpl;
    try (destruct Hp as [[-> ->]|[-> ->]]; simpl; congruence).
  rewrite (dget_rev_NoDup _ _ (CU _ Ed)).
  destruct (dget p dd); [reflexivity|]. destruct Hp as [[-> ->]|[-> ->]]; simpl; congruence.
Qed.

(** ** C10 *)
Lemma msg_new_get' cc d m p v : c_json cc = [] -> uniq d -> msg_new cc d = Ok m -> mem_str p (c_sp cc) = false ->
  dget p d = Some (VStr v) -> v <> "" -> dget p m = Some (VStr v).
Proof.
  intros J U H S G V. rewrite (msg_new_get _ _ _ U H), G. destruct v as [|a v]; [easy|]. cbn [skipped].
  now rewrite shown_plain by (rewrite ?J; auto).
Qed.
Lemma stored_req d st req rq p v : NoDup (dkeys req) ->
  (forall cc, get_item d cc "auth_request" st = msg_new cc (msg_to_dict cAuthzRequest req)) ->
  get_item d cAuthzRequest "auth_request" st = Ok rq -> mem_str p (c_sp cAuthzRequest) = false ->
  dget p req = Some (VStr v) -> v <> "" -> dget p rq = Some (VStr v).
Proof.
  intros N H G S V Ne. rewrite H in G. eapply stored_param; eauto; reflexivity.
Qed.
Lemma request_state_and_nonce W cl reqs beh c u st c' n :
  rnd32 (e_state W) -> plain_conf (conf_of cl "authorization") -> (forall m v, e_hash W m v <> "") ->
  uniq reqs -> config_uniq c -> chosen c reqs "nonce" (Some (VStr (e_nonce W))) = Some (VStr n) -> n <> "" ->
  init_authorization W cl reqs beh c = (Ok (u, st), c') ->
  st = e_state W /\
  get_state_by_nonce (sdb c') (e_nonce W) = Ok st /\
  (issuer c <> "" -> get_iss (sdb c') st = Ok (VStr (issuer c))) /\
  (exists rq, get_item (sdb c') cAuthzRequest "auth_request" st = Ok rq /\
     dget "state" rq = Some (VStr st) /\ dget "nonce" rq = Some (VStr n)) /\
  (forall ep, dget "authorization_endpoint" (provider_info c) = Some (VStr ep) -> u_query (urlsplit ep) = "" ->
     no_request_object beh -> query_has u "state" st /\ query_has u "nonce" n) /\
  (forall k, rnd32 k -> k <> st -> get_state (sdb c') k = get_state (sdb c) k).
Proof.
  intros Hk PC HH U CU HN Ne H.
  destruct (init_spec rnd32 _ _ _ _ _ _ _ _ rnd32_family Hk PC HH H)
    as (-> & args & req & ep & A & B1 & B2 & B3 & B4 & B5 & B6 & B7 & B8 & _ & _ & _ & _ & C1 & C2 & C3 & _ & C5).
  assert (Sne : e_state W <> "") by (destruct rnd32_family as [X _]; now apply X).
  assert (HA : dget "nonce" args = Some (VStr n)).
  { rewrite <- HN. eapply chosen_args; eauto. }
  assert (HR : dget "nonce" req = Some (VStr n)). { apply B8; [assumption|]. destruct n; [easy|reflexivity]. }
  split; [reflexivity|]. split; [assumption|]. split; [assumption|]. split; [|split].
  - destruct (msg_new_total cAuthzRequest (msg_to_dict cAuthzRequest req) eq_refl) as [rq Hq].
    exists rq. assert (G : get_item (sdb c') cAuthzRequest "auth_request" (e_state W) = Ok rq) by now rewrite B5.
    split; [exact G|]. split; eapply stored_req; eauto.
  - intros ep' E Q NRO. rewrite B1 in E. injection E as <-. destruct (C5 NRO Q) as (X & _). split; apply X; auto.
  - intros k K1 K2. unfold get_state. now rewrite C1.
Qed.

(** a caller's own nonce is bound too when the response type asks for a code or an ID Token *)
Lemma chosen_response_type W c reqs args v : authz_request_args W c reqs = Ok args -> uniq reqs -> config_uniq c ->
  chosen c reqs "response_type" (first_response_type c) = Some v -> dget "response_type" args = Some v.
Proof.
  intros H U CU. unfold authz_request_args in H.
  destruct (response_type_of c reqs) as [rt|] eqn:Er; simpl in H; [|discriminate].
  destruct (pick_redirect_uri c (Some reqs) (Some rt)) as [ru|] eqn:Ep; simpl in H; [|discriminate].
  destruct (dict_get "scope" (behaviour c)) as [sc|] eqn:Es; simpl in H; [|discriminate].
  injection H as <-.
  rewrite !dget_dupdate. unfold chosen, configured, config_request_args. rewrite (dget_rev_NoDup _ _ U).
  destruct (dget "response_type" reqs) eqn:E1; [auto|].
  assert (R : forall v, first_response_type c = Some v -> rt = v).
  { unfold first_response_type, response_type_of, dict_get in *. intros v0. destruct (dget "response_types" (behaviour c)) as [[| | | |[|x l]|]|]; try discriminate.
    simpl in Er. rewrite E1 in Er. congruence. }
  destruct (dget "request_args" (config c)) as [[| | | | |dd]|] eqn:Ed; simpl; try (intros G; rewrite (R _ G); reflexivity).
  rewrite (dget_rev_NoDup _ _ (CU _ Ed)). destruct (dget "response_type" dd); [auto|]. intros G; rewrite (R _ G); reflexivity.
Qed.
Lemma own_nonce_bound W cl reqs beh c u st c' n l s w ws :
  rnd32 (e_state W) -> plain_conf (conf_of cl "authorization") -> (forall m v, e_hash W m v <> "") ->
  uniq reqs -> config_uniq c -> chosen c reqs "nonce" (Some (VStr (e_nonce W))) = Some (VStr n) -> n <> "" ->
  chosen c reqs "scope" (dget "scope" (behaviour c)) = Some (VList l) ->
  chosen c reqs "response_type" (first_response_type c) = Some (VStr s) ->
  split_on " "%char s = w :: ws -> contains "id_token" w || contains "code" w = true ->
  init_authorization W cl reqs beh c = (Ok (u, st), c') ->
  get_state_by_nonce (sdb c') n = Ok st.
Proof.
  intros Hk PC HH U CU HN Ne HS HR Hw HW H.
  destruct (init_spec rnd32 _ _ _ _ _ _ _ _ rnd32_family Hk PC HH H)
    as (-> & args & req & ep & A & B1 & B2 & B3 & B4 & B5 & B6 & B7 & B8 & B9 & B10 & B11 & _).
  assert (HA : dget "nonce" args = Some (VStr n)). { rewrite <- HN. eapply chosen_args; eauto. }
  assert (HS' : dget "scope" args = Some (VList l)). { rewrite <- HS. eapply chosen_args; eauto. }
  assert (HR' : dget "response_type" args = Some (VStr s)) by eauto using chosen_response_type.
  assert (HRn : dget "nonce" req = Some (VStr n)). { apply B8; [assumption|]. destruct n; [easy|reflexivity]. }
  destruct (B11 _ HS') as (l' & S1 & S2 & _).
  assert (X : dget "response_type" req = Some (VList (VStr w :: map VStr ws))).
  { rewrite (B10 _ HR').
    - unfold shown. cbn [mem_str c_json c_sp cAuthzRequest existsb]. cbn. unfold strs, sp. rewrite Hw. reflexivity.
    - destruct s; [|reflexivity]. cbn in Hw. injection Hw as <- <-. discriminate. }
  destruct (B9 _ _ _ S1 S2 X HW) as (n' & Y & Z). rewrite HRn in Y. now injection Y as <-.
Qed.

(** ** C42 *)
Lemma request_scope W cl reqs beh c u st c' l :
  rnd32 (e_state W) -> plain_conf (conf_of cl "authorization") -> (forall m v, e_hash W m v <> "") ->
  uniq reqs -> config_uniq c -> chosen c reqs "scope" (dget "scope" (behaviour c)) = Some (VList l) ->
  init_authorization W cl reqs beh c = (Ok (u, st), c') ->
  exists l', In (VStr "openid") l' /\ incl l l' /\ incl l' (VStr "openid" :: l) /\
    (forall ep ws, dget "authorization_endpoint" (provider_info c) = Some (VStr ep) -> u_query (urlsplit ep) = "" ->
       no_request_object beh -> all_strs l' = Some ws -> query_has u "scope" (join " " ws)) /\
    (forall ws, all_strs l' = Some ws -> forallb (fun w => negb (char_in sp w)) ws = true ->
       exists rq, get_item (sdb c') cAuthzRequest "auth_request" st = Ok rq /\ dget "scope" rq = Some (VList l')).
Proof.
  intros Hk PC HH U CU HS H.
  destruct (init_spec rnd32 _ _ _ _ _ _ _ _ rnd32_family Hk PC HH H)
    as (-> & args & req & ep & A & B1 & B2 & B3 & B4 & B5 & B6 & B7 & B8 & B9 & B10 & B11 & _ & _ & _ & _ & _ & C5).
  assert (HS' : dget "scope" args = Some (VList l)). { rewrite <- HS. eapply chosen_args; eauto. }
  destruct (B11 _ HS') as (l' & S1 & S2 & S3 & S4). exists l'. split; [assumption|]. split; [assumption|]. split; [assumption|].
  assert (NE : forall ws, all_strs l' = Some ws -> ws <> [] /\ join " " ws <> "").
  { intros ws E. assert (In "openid" ws).
    { clear -S2 E. revert ws E. induction l' as [|x r IH]; [easy|]. intros ws. cbn [all_strs]. destruct x; try discriminate.
      destruct (all_strs r); [|discriminate]. intros [= <-]. destruct S2 as [[= <-]|S2]; [now left|right; auto]. }
    split; [intros ->; easy|]. intros C. clear -H0 C. destruct ws as [|a [|b r]]; [easy| |].
    - destruct H0 as [->|[]]. discriminate.
    - cbn in C. destruct a; discriminate. }
  split.
  - intros ep' ws E Q NRO Hw. rewrite B1 in E. injection E as <-. destruct (C5 NRO Q) as (_ & X & _).
    eapply X; eauto. now apply NE.
  - intros ws Hw Hsp. destruct (msg_new_total cAuthzRequest (msg_to_dict cAuthzRequest req) eq_refl) as [rq Hq].
    exists rq. split; [now rewrite B5|].
    assert (ND : NoDup (dkeys (msg_to_dict cAuthzRequest req))) by (rewrite ser_keys; assumption).
    rewrite (msg_new_get _ _ _ ND Hq). rewrite ser_get, S1. cbn [ser_param]. unfold ser_param.
    cbn [mem_str existsb c_json c_sp cAuthzRequest]. cbn. rewrite Hw. cbn [snd].
    destruct (NE _ Hw) as [N1 N2]. replace (skipped (VStr (join " " ws))) with false by (destruct (join " " ws); easy). unfold shown. cbn [mem_str existsb c_json c_sp cAuthzRequest]. cbn.
    pose proof (split_join sp ws N1 Hsp) as SJ. unfold sp in *. rewrite SJ. f_equal. unfold strs.
    clear -Hw. revert ws Hw. induction l' as [|x r IH]; cbn [all_strs]; [intros ws [= <-]; reflexivity|].
    destruct x; try discriminate. destruct (all_strs r) eqn:E; [|discriminate]. intros ws [= <-]. cbn [map].
    f_equal. f_equal. specialize (IH _ eq_refl). congruence.
Qed.

(** ** reachable clients *)
Lemma closed_reach cl os c : plain_client cl -> Forall call_ok os -> sdb c = [] -> closed rnd32 (sdb (run_calls cl os c)).
Proof.
  intros PC OK E. destruct (calls_from_empty cl os c PC OK E) as (ops & O & ->).
  eapply closed_run; [apply rnd32_family|apply closed_nil|exact O].
Qed.
Lemma unreserved_length rand n : String.length (unreserved rand n) = n.
Proof. unfold unreserved. generalize (seq_length n 0). generalize (seq 0 n) as l. intros l <-. induction l as [|i l IH]; [reflexivity|]. cbn [map sl String.length length]. now rewrite IH. Qed.
Lemma unreserved_chars rand n : all_chars unreserved_char (unreserved rand n) = true.
Proof.
  unfold unreserved. generalize (seq 0 n) as l. induction l as [|i l IH]; [reflexivity|]. cbn [map].
  change (sl (?a :: ?r)) with (String a (sl r)). cbn [all_chars]. rewrite IH, andb_true_r.
  assert (F : forallb unreserved_char (la BASECHR) = true) by reflexivity.
  rewrite forallb_forall in F. apply F. apply nth_In.
  assert (L : length (la BASECHR) = String.length BASECHR) by reflexivity. rewrite L. apply Nat.mod_upper_bound. discriminate.
Qed.

(** ** C13 and C14: an authorization request, any history, then the token request *)
Lemma init_closed cl W reqs beh c u st c1 : plain_client cl -> rnd32 (e_state W) -> closed rnd32 (sdb c) ->
  init_authorization W cl reqs beh c = (Ok (u, st), c1) -> closed rnd32 (sdb c1).
Proof.
  intros PC K CL H. destruct (call_writes cl (CInit W reqs beh) c PC K CL) as (_ & ops & O & E).
  cbn [run_call] in E. rewrite H in E. cbn [snd] in E. rewrite E.
  eapply closed_run; [apply rnd32_family|exact CL|]. eapply Forall_impl; [|exact O]. intros ? []. assumption.
Qed.
Lemma history_keeps cl os c : plain_client cl -> Forall call_ok os -> closed rnd32 (sdb c) ->
  run_calls cl os c = set_db (sdb (run_calls cl os c)) c.
Proof. intros PC OK CL. now destruct (calls_write cl os PC OK c CL). Qed.
Lemma token_request_of_session cl os0 os1 c0 W0 W reqs beh u k c1 code ru ar ep :
  plain_client cl -> sdb c0 = [] -> Forall call_ok os0 -> Forall call_ok os1 ->
  rnd32 (e_state W0) -> (forall m v, e_hash W0 m v <> "") ->
  init_authorization W0 cl reqs beh (run_calls cl os0 c0) = (Ok (u, k), c1) ->
  (forall o, In o os1 -> leaves k o) ->
  let c := run_calls cl os1 c1 in
  (exists rq, get_item (sdb c1) cAuthzRequest "auth_request" k = Ok rq /\ dget "redirect_uri" rq = Some (VStr ru)) -> ru <> "" ->
  get_item (sdb c) cAuthzResponse "auth_response" k = Ok ar -> dget "code" ar = Some (VStr code) -> code <> "" ->
  dget "token_endpoint" (provider_info c) = Some (VStr ep) ->
  only_sends (fun http => get_tokens (with_http W http) cl k) c
    (token_wire k code ru ep (fun txt => cl_pkce cl = true -> forall n m, pkce_setting c0 n m -> 0 < n ->
        form_has txt "code_verifier" (unreserved (e_rand W0) n))).
Proof.
  intros PC E0 OK0 OK1 K HH H LV c (rq & R1 & R2) Rne A1 A2 Cne EP.
  pose proof (closed_reach cl os0 c0 PC OK0 E0) as CL0.
  assert (CL1 : closed rnd32 (sdb c1)) by (eapply init_closed; eauto).
  destruct (init_spec rnd32 _ _ _ _ _ _ _ _ rnd32_family K (proj1 PC) HH H)
    as (-> & args & req & ep0 & A & B1 & B2 & B3 & B4 & B5 & B6 & B7 & B8 & B9 & B10 & B11 & _ & _ & _ & B12 & C4 & _).
  assert (Sne : e_state W0 <> "") by (destruct rnd32_family as [X _]; now apply X).
  assert (SS : exists s, get_state (sdb c1) (e_state W0) = Ok s) by (eapply get_item_state; eauto).
  assert (Q1 : get_item (sdb c) cAuthzRequest "auth_request" (e_state W0) = Ok rq).
  { unfold c. rewrite calls_keep; auto. cbn. intuition discriminate. }
  assert (Q2 : get_item (sdb c) cMessage "pkce" (e_state W0) = get_item (sdb c1) cMessage "pkce" (e_state W0)).
  { unfold c. rewrite calls_keep; auto. cbn. intuition discriminate. }
  assert (P := token_sends W cl (e_state W0) c ar rq code ru ep Sne Cne Rne A1 A2 Q1 R2 EP).
  intros h1 h2 Hh. apply P. intros u0 m0 b0 hd (X1 & X2 & txt & X3 & X4 & X5 & X6 & X7 & X8). apply Hh.
  split; [exact X1|]. split; [exact X2|]. exists txt. do 5 (split; [assumption|]). intros Hp n m PS Hn.
  destruct (C4 Hp) as (n' & m' & v & D1 & D2 & D3 & D4 & D5 & D6).
  assert (EQ : n' = n /\ m' = m).
  { pose proof (history_keeps cl os0 c0 PC OK0) as HKP. rewrite E0 in HKP. specialize (HKP (closed_nil _)).
    rewrite HKP in D1. unfold pkce_setting in D1, PS. cbn [add_on set_db] in D1.
    destruct D1 as (cf & F1 & F2 & F3), PS as (cf' & G1 & G2 & G3). rewrite F1 in G1. injection G1 as <-.
    split.
    - destruct (dget "code_challenge_length" cf) as [x|]; [|congruence]. destruct F2 as (z & -> & ->), G2 as (z' & Z & ->). congruence.
    - destruct (dget "code_challenge_method" cf); congruence. }
  destruct EQ as [-> ->].
  assert (Vne : v <> "").
  { intros C. subst v. pose proof (unreserved_length (e_rand W0) n) as L. rewrite C in L. cbn in L. lia. }
  rewrite D6 in Q2. subst v.
  destruct (msg_new_total cMessage [("code_verifier", VStr (unreserved (e_rand W0) n)); ("code_challenge_method", VStr m)] eq_refl) as [it Hit].
  rewrite Hit in Q2. apply (X8 Hp it); auto.
  eapply (msg_new_get' cMessage); [reflexivity| |exact Hit|reflexivity|reflexivity|assumption].
  unfold uniq. cbn. repeat constructor; cbn; intuition discriminate.
Qed.
Lemma challenge_sent W cl reqs beh c u k c' n m ep : rnd32 (e_state W) -> plain_conf (conf_of cl "authorization") ->
  (forall m v, e_hash W m v <> "") -> cl_pkce cl = true -> pkce_setting c n m -> no_request_object beh ->
  dget "authorization_endpoint" (provider_info c) = Some (VStr ep) -> u_query (urlsplit ep) = "" ->
  init_authorization W cl reqs beh c = (Ok (u, k), c') ->
  let v := unreserved (e_rand W) n in
  In m cc_methods /\ query_has u "code_challenge" (b64e (e_hash W m v)) /\ query_has u "code_challenge_method" m /\
  String.length v = n /\ all_chars unreserved_char v = true.
Proof.
  intros K PC HH Hp PS NRO EP Q H v.
  destruct (init_spec rnd32 _ _ _ _ _ _ _ _ rnd32_family K PC HH H)
    as (-> & args & req & ep0 & A & B1 & B2 & B3 & B4 & B5 & B6 & B7 & B8 & B9 & B10 & B11 & _ & _ & _ & B12 & C4 & C5).
  rewrite B1 in EP. injection EP as <-.
  destruct (C4 Hp) as (n' & m' & v' & D1 & D2 & D3 & D4 & D5 & D6).
  assert (EQ : n' = n /\ m' = m).
  { destruct D1 as (cf & F1 & F2 & F3), PS as (cf' & G1 & G2 & G3). rewrite F1 in G1. injection G1 as <-.
    split.
    - destruct (dget "code_challenge_length" cf) as [x|]; [|congruence]. destruct F2 as (z & -> & ->), G2 as (z' & Z & ->). congruence.
    - destruct (dget "code_challenge_method" cf); congruence. }
  destruct EQ as [-> ->]. subst v'. destruct (C5 NRO Q) as (X & _). split; [assumption|]. split; [|split; [|split]].
  - apply X; [assumption|]. now apply b64e_nonempty.
  - apply X; [assumption|]. cbn in D3. intuition (subst; discriminate).
  - apply unreserved_length.
  - apply unreserved_chars.
Qed.
Lemma pkce_unsupported hash unres args post kw c n m : pkce_setting c n m -> ~ In m cc_methods ->
  add_code_challenge hash unres args post kw c = (Err Unsupported, c).
Proof.
  intros (cf & F1 & F2 & F3) Nm. unfold add_code_challenge, pkce_conf. rewrite F1. cbn [rbind].
  replace (pkce_length cf) with (@Ok nat n).
  2:{ unfold pkce_length. destruct (dget "code_challenge_length" cf) as [x|]; [|congruence]. destruct F2 as (z & -> & ->). reflexivity. }
  cbn [rbind].
  assert (X : mem_str m cc_methods = false). { destruct (mem_str m cc_methods) eqn:E; [|reflexivity]. apply mem_str_In in E. easy. }
  destruct (dget "code_challenge_method" cf) as [x|]; subst; cbn [rbind]; rewrite X; reflexivity.
Qed.
Lemma pkce_unsupported_no_request W cl reqs beh c n m : rnd32 (e_state W) -> plain_conf (conf_of cl "authorization") ->
  (forall m v, e_hash W m v <> "") -> cl_pkce cl = true -> pkce_setting c n m -> ~ In m cc_methods ->
  exists e, fst (init_authorization W cl reqs beh c) = Err e.
Proof.
  intros K PC HH Hp PS Nm. destruct (init_authorization W cl reqs beh c) as [[[u k]|e] c'] eqn:H; [|cbn; eauto]. exfalso.
  destruct (init_spec rnd32 _ _ _ _ _ _ _ _ rnd32_family K PC HH H)
    as (-> & args & req & ep0 & A & B1 & B2 & B3 & B4 & B5 & B6 & B7 & B8 & B9 & B10 & B11 & _ & _ & _ & B12 & C4 & C5).
  destruct (C4 Hp) as (n' & m' & v' & D1 & D2 & D3 & _).
  apply Nm. destruct D1 as (cf & F1 & F2 & F3), PS as (cf' & G1 & G2 & G3). rewrite F1 in G1. injection G1 as <-.
  destruct (dget "code_challenge_method" cf); congruence.
Qed.

Lemma only_sends_weaken {A} (run : http_client -> M A) c (P Q : string -> string -> option body -> headers -> Prop) :
  only_sends run c P -> (forall u m b h, P u m b h -> Q u m b h) -> only_sends run c Q.
Proof. intros H I h1 h2 E. apply H. intros. apply E. auto. Qed.
Lemma token_wire_weaken st code ru ep (P Q : string -> Prop) u m b h : (forall t, P t -> Q t) ->
  token_wire st code ru ep P u m b h -> token_wire st code ru ep Q u m b h.
Proof.
  intros I (A & B & txt & C & D & E & F & G & J). split; [exact A|]. split; [exact B|]. exists txt. repeat (split; [assumption|]). auto.
Qed.

Lemma token_request_of_session_plain cl os0 os1 c0 W0 W reqs beh u k c1 code ru ar ep :
  plain_client cl -> sdb c0 = [] -> Forall call_ok os0 -> Forall call_ok os1 ->
  rnd32 (e_state W0) -> (forall m v, e_hash W0 m v <> "") ->
  init_authorization W0 cl reqs beh (run_calls cl os0 c0) = (Ok (u, k), c1) ->
  (forall o, In o os1 -> leaves k o) ->
  let c := run_calls cl os1 c1 in
  (exists rq, get_item (sdb c1) cAuthzRequest "auth_request" k = Ok rq /\ dget "redirect_uri" rq = Some (VStr ru)) -> ru <> "" ->
  get_item (sdb c) cAuthzResponse "auth_response" k = Ok ar -> dget "code" ar = Some (VStr code) -> code <> "" ->
  dget "token_endpoint" (provider_info c) = Some (VStr ep) ->
  only_sends (fun http => get_tokens (with_http W http) cl k) c (token_wire k code ru ep (fun _ => True)).
Proof.
  intros. eapply only_sends_weaken; [apply (token_request_of_session cl os0 os1 c0 W0 W reqs beh u k c1 code ru ar ep); assumption|].
  intros. eapply token_wire_weaken; [|eassumption]. auto.
Qed.
Lemma verifier_of_session cl os0 os1 c0 W0 W reqs beh u k c1 code ru ar ep n m :
  cl_pkce cl = true -> pkce_setting c0 n m -> 0 < n ->
  plain_client cl -> sdb c0 = [] -> Forall call_ok os0 -> Forall call_ok os1 ->
  rnd32 (e_state W0) -> (forall m v, e_hash W0 m v <> "") ->
  init_authorization W0 cl reqs beh (run_calls cl os0 c0) = (Ok (u, k), c1) ->
  (forall o, In o os1 -> leaves k o) ->
  let c := run_calls cl os1 c1 in
  (exists rq, get_item (sdb c1) cAuthzRequest "auth_request" k = Ok rq /\ dget "redirect_uri" rq = Some (VStr ru)) -> ru <> "" ->
  get_item (sdb c) cAuthzResponse "auth_response" k = Ok ar -> dget "code" ar = Some (VStr code) -> code <> "" ->
  dget "token_endpoint" (provider_info c) = Some (VStr ep) ->
  only_sends (fun http => get_tokens (with_http W http) cl k) c
    (token_wire k code ru ep (fun txt => form_has txt "code_verifier" (unreserved (e_rand W0) n))).
Proof.
  intros. eapply only_sends_weaken; [apply (token_request_of_session cl os0 os1 c0 W0 W reqs beh u k c1 code ru ar ep); assumption|].
  intros. eapply token_wire_weaken; [|eassumption]. cbv beta. intros ? X. eapply X; eassumption.
Qed.
Lemma redirect_in_url W cl reqs beh c u k c' ru ep :
  rnd32 (e_state W) -> plain_conf (conf_of cl "authorization") -> (forall m v, e_hash W m v <> "") ->
  no_request_object beh -> dget "authorization_endpoint" (provider_info c) = Some (VStr ep) -> u_query (urlsplit ep) = "" ->
  init_authorization W cl reqs beh c = (Ok (u, k), c') ->
  (exists rq, get_item (sdb c') cAuthzRequest "auth_request" k = Ok rq /\ dget "redirect_uri" rq = Some (VStr ru)) ->
  query_has u "redirect_uri" ru.
Proof.
  intros K PC HH NRO EP Q H (rq & R1 & R2).
  destruct (init_spec rnd32 _ _ _ _ _ _ _ _ rnd32_family K PC HH H)
    as (-> & args & req & ep0 & A & B1 & B2 & B3 & B4 & B5 & B6 & B7 & B8 & B9 & B10 & B11 & _ & _ & _ & B12 & C4 & C5).
  rewrite B1 in EP. injection EP as <-. destruct (C5 NRO Q) as (X & _).
  rewrite B5 in R1. assert (ND : NoDup (dkeys (msg_to_dict cAuthzRequest req))) by (rewrite ser_keys; assumption).
  rewrite (msg_new_get _ _ _ ND R1), ser_get in R2.
  destruct (dget "redirect_uri" req) as [v|] eqn:E; [|discriminate].
  cbn in R2. destruct (skipped v) eqn:Ev; [discriminate|]. injection R2 as ->. apply X; [assumption|].
  intros ->. discriminate.
Qed.
