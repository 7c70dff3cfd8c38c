(** C56: the configuration of a service; C57: session management requests; C58: the
    configuration of the RP. *)
From Verif Require Import Base BaseP Json JsonP Msg M_State S_State P_State M_Ctx M_Codec M_Authz M_ClientAuth
  M_Service M_Token M_Handler M_Config S_Service S_Token S_Handler S_Config P_Ctx P_Service P_Wire P_Flow P_Token P_Handler P_Handler3 Ex.

(** ** C56 *)
Lemma first_dflt d : first_set [d] = d.
Proof. cbn [first_set]. destruct (d =?s "") eqn:E; [|reflexivity]. symmetry. now apply String.eqb_eq. Qed.
Lemma conf_first conf p d : proper_setting conf p -> first_set [setting conf p; d] = conf_str conf p d.
Proof.
  unfold setting, conf_str. intros [-> | (w & -> & W)].
  - exact (first_dflt d).
  - cbn [first_set]. now rewrite (eqb_neq w "").
Qed.
Lemma first_cons v l : first_set (v :: l) = if v =?s "" then first_set l else v.
Proof. reflexivity. Qed.
Lemma gather_configured authn dm s c ps : forall args, gather_loop (configured authn dm s) c ps args = gather_loop s c ps args.
Proof.
  induction ps as [|p r IH]; intros args; [reflexivity|]. cbn [gather_loop].
  change (gathered (configured authn dm s)) with (gathered s). now rewrite !IH.
Qed.
Lemma construct_configured authn dm s args kw c : construct (configured authn dm s) args kw c = construct s args kw c.
Proof.
  unfold construct, bind, lift. change (do_pre_construct (configured authn dm s)) with (do_pre_construct s).
  destruct (do_pre_construct s args kw c) as [[[a1 post]|] c1]; [|reflexivity].
  unfold gather_request_args. rewrite gather_configured. reflexivity.
Qed.
(** asking for what is used anyway changes nothing *)
Lemma grp_explicit E s args m bt au kw c m' bt' au' :
  m' = (if m =?s "" then s_http_method s else m) -> bt' = (if bt =?s "" then s_req_type s else bt) ->
  au' = (if au =?s "" then s_authn s c else au) -> m' <> "" -> bt' <> "" -> au' <> "" ->
  get_request_parameters E s args m bt au kw c = get_request_parameters E s args m' bt' au' kw c.
Proof.
  intros M B A N1 N2 N3. unfold get_request_parameters, bind, asks.
  rewrite (eqb_neq m' ""), (eqb_neq bt' ""), (eqb_neq au' "") by assumption.
  now rewrite <- M, <- B, <- A.
Qed.
Lemma grp_configured E authn dm s args m bt au kw c : m <> "" -> bt <> "" -> au <> "" ->
  get_request_parameters E (configured authn dm s) args m bt au kw c = get_request_parameters E s args m bt au kw c.
Proof.
  intros N1 N2 N3. unfold get_request_parameters, get_headers, bind, asks.
  rewrite (eqb_neq m ""), (eqb_neq bt ""), (eqb_neq au "") by assumption.
  rewrite construct_configured.
  destruct (construct s args kw c) as [[req|] c1]; [|reflexivity].
  rewrite (eqb_neq au "") by assumption. reflexivity.
Qed.

(** the request a configured service makes is the one the plain service makes when the caller
    asks for the settings: caller's first, then configured, then the class's *)
Theorem C56_request_settings : forall E authn dm s args m bt au kw c,
  let conf := s_conf s in
  let method := first_set [m; setting conf "http_method"; s_http_method s] in
  let body := first_set [bt; setting conf "request_body_type"; s_req_type s] in
  let auth := first_set [au; authn (first_set [setting conf "default_authn_method"; dm]) c] in
  proper_setting conf "http_method" -> proper_setting conf "request_body_type" -> proper_setting conf "default_authn_method" ->
  method <> "" -> body <> "" -> auth <> "" ->
  get_request_parameters E (configured authn dm s) args m bt au kw c = get_request_parameters E s args method body auth kw c.
Proof.
  intros E authn dm s args m bt au kw c conf method body auth P1 P2 P3 N1 N2 N3.
  rewrite <- (grp_configured E authn dm s args method body auth kw c) by assumption.
  apply grp_explicit; try assumption.
  - unfold method. rewrite first_cons, (conf_first _ _ _ P1). reflexivity.
  - unfold body. rewrite first_cons, (conf_first _ _ _ P2). reflexivity.
  - unfold auth. rewrite first_cons, (conf_first _ _ _ P3), first_dflt. reflexivity.
Qed.
Print Assumptions C56_request_settings.

(** seen from outside: the HTTP method, and the content type of a body *)
Theorem C56_method_and_body : forall E authn dm s args m bt au kw c i c',
  proper_setting (s_conf s) "http_method" -> proper_setting (s_conf s) "request_body_type" ->
  get_request_parameters E (configured authn dm s) args m bt au kw c = (Ok i, c') ->
  i_method i = first_set [m; setting (s_conf s) "http_method"; s_http_method s] /\
  (i_method i = "POST" ->
   dget "Content-Type" (i_headers i) =
     Some (let b := first_set [bt; setting (s_conf s) "request_body_type"; s_req_type s] in
           if b =?s "urlencoded" then "application/x-www-form-urlencoded"
           else if mem_str b ["jws"; "jwe"; "jose"] then "application/jose" else "application/json")).
Proof.
  intros E authn dm s args m bt au kw c i c' P1 P2 H.
  rewrite !(first_cons m), !(first_cons bt), (conf_first _ _ _ P1), (conf_first _ _ _ P2).
  pose proof (grp_inv _ _ _ _ _ _ _ _ _ _ H) as (req0 & c1 & h & req1 & ep & _ & _ & _ & Hm & _ & _ & Hb).
  change (s_http_method (configured authn dm s)) with (conf_str (s_conf s) "http_method" (s_http_method s)) in *.
  change (s_req_type (configured authn dm s)) with (conf_str (s_conf s) "request_body_type" (s_req_type s)) in *.
  split; [exact Hm|]. intros P. rewrite Hm in P. cbv zeta in Hb. rewrite P in Hb. cbn [eqs String.eqb Ascii.eqb Bool.eqb] in Hb.
  destruct Hb as (b & _ & _ & ->). rewrite dget_dset_eq. reflexivity.
Qed.
Print Assumptions C56_method_and_body.

(** a registered authentication method for the token endpoint goes before a configured one *)
Theorem C56_registered_method_first : forall E dm s args m bt kw c reg,
  dget "token_endpoint_auth_method" (behaviour c) = Some (VStr reg) -> reg <> "" ->
  get_request_parameters E (configured token_authn_method dm s) args m bt "" kw c =
  get_request_parameters E (configured token_authn_method dm s) args m bt reg kw c.
Proof.
  intros E dm s args m bt kw c reg R N. unfold get_request_parameters, bind, asks.
  rewrite (eqb_neq reg "") by assumption. cbn [eqs String.eqb].
  change (s_authn (configured token_authn_method dm s) c) with (token_authn_method (conf_str (s_conf s) "default_authn_method" dm) c).
  unfold token_authn_method. now rewrite R.
Qed.
Print Assumptions C56_registered_method_first.

(** the expected format of the answer *)
Lemma parse_configured jwt authn dm s inf f st : f <> "" -> parse_response jwt (configured authn dm s) inf f st = parse_response jwt s inf f st.
Proof. intros N. unfold parse_response. rewrite (eqb_neq f "") by assumption. reflexivity. Qed.
Lemma prr_configured jwt authn dm s hr f st c : f <> "" ->
  parse_request_response jwt (configured authn dm s) hr f st c = parse_request_response jwt s hr f st c.
Proof.
  intros N. unfold parse_request_response.
  destruct (zmem (h_status hr) SUCCESSFUL).
  { rewrite parse_configured; [reflexivity|]. destruct (mem_str _ _) eqn:E; [|assumption]. intros Z. rewrite Z in E. discriminate. }
  destruct (zmem (h_status hr) [302%Z; 303%Z]); [reflexivity|]. destruct (h_status hr =? 500)%Z; [reflexivity|].
  destruct (_ && _); [|reflexivity].
  rewrite parse_configured; [|destruct (get_deserialization_method hr =?s "") eqn:E; [easy|now apply String.eqb_neq in E]].
  destruct (parse_response jwt s _ _ _ c) as [[m|e] c1]; [reflexivity|]. destruct e; try reflexivity.
  rewrite parse_configured by assumption. reflexivity.
Qed.
Theorem C56_answer_format : forall E http jwt authn dm s rbt args au kw c,
  let format := first_set [rbt; setting (s_conf s) "response_body_type"; s_resp_type s] in
  proper_setting (s_conf s) "response_body_type" -> format <> "" ->
  do_request E http jwt (configured authn dm s) rbt args au kw c =
  (i <- get_request_parameters E (configured authn dm s) args "" "" au kw ;;
   service_request http jwt s (i_url i) (i_method i) (i_body i) format (i_headers i)
     (Some (match dget "state" kw with Some (VStr x) => x | _ => "" end))) c.
Proof.
  intros E http jwt authn dm s rbt args au kw c format P N. unfold do_request, bind.
  destruct (get_request_parameters E (configured authn dm s) args "" "" au kw c) as [[i|e] c1]; [|reflexivity].
  change (s_resp_type (configured authn dm s)) with (conf_str (s_conf s) "response_body_type" (s_resp_type s)).
  replace (if rbt =?s "" then conf_str (s_conf s) "response_body_type" (s_resp_type s) else rbt) with format
    by (unfold format; now rewrite first_cons, (conf_first _ _ _ P)).
  unfold service_request, get_response, bind. destruct (http _ _ _ _) as [hr|e] eqn:Eh; [|reflexivity].
  destruct (_ && _); [reflexivity|]. cbv zeta. rewrite (eqb_neq format "") by assumption. rewrite !Bool.andb_false_r.
  destruct (_ && _); [reflexivity|]. rewrite prr_configured by assumption. reflexivity.
Qed.
Print Assumptions C56_answer_format.

(** an answer in the configured format 'html' is handed on as it is *)
Theorem C56_html_answer : forall E http jwt authn dm s args au kw c i c1 hr,
  dget "response_body_type" (s_conf s) = Some (VStr "html") ->
  get_request_parameters E (configured authn dm s) args "" "" au kw c = (Ok i, c1) ->
  http (i_url i) (i_method i) (i_body i) (i_headers i) = Ok hr -> (h_status hr < 300)%Z ->
  do_request E http jwt (configured authn dm s) "" args au kw c = (Ok (RText (h_text hr)), c1).
Proof.
  intros E http jwt authn dm s args au kw c i c1 hr P G Hh S.
  assert (PS : proper_setting (s_conf s) "response_body_type") by (right; now exists "html").
  assert (F : first_set [""; setting (s_conf s) "response_body_type"; s_resp_type s] = "html").
  { rewrite first_cons, (conf_first _ _ _ PS). unfold conf_str. now rewrite P. }
  rewrite C56_answer_format; [|assumption|now rewrite F].
  unfold bind. rewrite G, F. unfold service_request, get_response, bind. rewrite Hh.
  replace (300 <=? h_status hr)%Z with false by (symmetry; apply Z.leb_gt; lia).
  replace (h_status hr <? 300)%Z with true by (symmetry; apply Z.ltb_lt; lia). cbn [andb eqs String.eqb Ascii.eqb Bool.eqb].
  unfold ret, has_error. destruct (contains _ _); reflexivity.
Qed.
Print Assumptions C56_html_answer.

(** a service without such settings is the plain one, and one whose default authentication
    method is configured as empty sends requests without authentication *)
Theorem C56_no_settings : forall authn dm s,
  dget "http_method" (s_conf s) = None -> dget "request_body_type" (s_conf s) = None ->
  dget "response_body_type" (s_conf s) = None -> dget "default_authn_method" (s_conf s) = None -> s_authn s = authn dm ->
  configured authn dm s = s.
Proof.
  intros authn dm s H1 H2 H3 H4 A. unfold configured, conf_str. rewrite H1, H2, H3, H4, <- A. now destruct s.
Qed.
Print Assumptions C56_no_settings.
Theorem C56_authentication_off : forall E dm s args m bt kw c i c',
  dget "default_authn_method" (s_conf s) = Some (VStr "") -> s_extra s = [] ->
  get_request_parameters E (configured plain_authn dm s) args m bt "" kw c = (Ok i, c') ->
  dget "Authorization" (i_headers i) = None /\ exists req c1, construct s args kw c = (Ok req, c1) /\ i_request i = req.
Proof.
  intros E dm s args m bt kw c i c' D X H.
  pose proof (grp_inv _ _ _ _ _ _ _ _ _ _ H) as (req0 & c1 & h & req1 & ep & HC & HH & _ & _ & HR & _ & Hb).
  rewrite construct_configured in HC.
  unfold get_headers, bind, asks in HH.
  change (s_authn (configured plain_authn dm s)) with (plain_authn (conf_str (s_conf s) "default_authn_method" dm)) in HH.
  unfold plain_authn, conf_str in HH. rewrite D in HH. cbn in HH. rewrite X in HH. cbn in HH. injection HH as <- <- <-.
  split; [|now exists req0, c1].
  destruct (_ =?s "POST"); [destruct Hb as (b & _ & _ & ->)|destruct Hb as (_ & ->)]; [|reflexivity].
  now rewrite dget_dset_neq.
Qed.
Print Assumptions C56_authentication_off.

(** example: user info by POST with the token in the body, as a caller would have to ask for
    it otherwise *)
Definition conf_userinfo : service :=
  userinfo_service (fun _ m => Ok m) (fun _ => Ok None) [("http_method", VStr "POST"); ("default_authn_method", VStr "bearer_body")].
Definition conf_run (s : service) (m au : string) : res info :=
  fst (get_request_parameters ex_authn s [("access_token", VStr "AT1")] m "" au [("state", VStr ex_state)] ex_c3).
Example C56_ex : exists i, conf_run (configured plain_authn "bearer_header" conf_userinfo) "" "" = Ok i /\
  i_method i = "POST" /\ i_body i = Some (BText "access_token=AT1") /\ conf_run conf_userinfo "POST" "bearer_body" = Ok i.
Proof.
  assert (R : conf_run (configured plain_authn "bearer_header" conf_userinfo) "" "" = conf_run conf_userinfo "POST" "bearer_body").
  { unfold conf_run. apply (f_equal fst). apply (C56_request_settings ex_authn plain_authn "bearer_header" conf_userinfo); try discriminate;
      unfold proper_setting; cbn; eauto; right; eexists; split; try reflexivity; discriminate. }
  rewrite R. vm_compute. eexists; repeat split; reflexivity.
Qed.

(** ** C57 *)
Lemma session_token_construct name conf args kw k c req c' :
  dget "state" kw = Some (VStr k) -> k <> "" -> dget "pre_construct" conf = None -> NoDup (dkeys args) ->
  construct (session_token_service name conf) args kw c = (Ok req, c') ->
  c' = c /\ (forall v, session_id_token (sdb c) k = Some v -> skipped v = false -> dget "id_token" req = Some v) /\
  (forall p, p <> "id_token" -> dget p args = None -> dget p req = None).
Proof.
  intros K KN PC N H. set (s := session_token_service name conf) in *.
  apply construct_inv in H. destruct H as (a1 & post & c1 & out & req0 & H1 & H2 & H3 & H4).
  unfold do_post_construct in H4. cbn [s session_token_service s_post run_post] in H4. unfold ret in H4. injection H4 as -> ->.
  unfold do_pre_construct in H1. rewrite method_args_plain in H1 by exact PC.
  change (s_pre s) with [session_token_pre] in H1. cbn [run_pre] in H1.
  apply bind_ok in H1. destruct H1 as ([a p] & d & E1 & H1). cbn [fst snd] in H1. unfold ret in H1. injection H1 as <- <- <-.
  unfold session_token_pre in E1. change (kw_state kw) with (let! v := dict_get "state" kw in key_arg v) in E1. unfold dict_get in E1.
  rewrite K in E1. cbn [rbind] in E1. unfold key_arg in E1. cbn [rbind] in E1.
  destruct (multiple_extend_request_args (sdb c) args k ["id_token"] _ false) as [b|] eqn:EX; cbn [rbind] in E1; [|discriminate E1].
  injection E1 as <- <- <-.
  destruct (extend_with _ _ _ _ _ _ _ EX) as [X1 X2].
  assert (NB : NoDup (dkeys b)) by (eapply mult_extend_NoDup; eauto).
  change (newest_with _ (sdb c) k _) with (session_id_token (sdb c) k) in X1.
  unfold state_default in H2. rewrite K in H2. change (mem_str "state" (c_par (s_cls s))) with false in H2. cbn match in H2.
  destruct (gather_spec s c b out eq_refl H2) as [NO G]. specialize (NO NB).
  pose proof (msg_new_get _ _ _ NO H3) as MG.
  split; [reflexivity|]. split.
  - intros v Hv SK. rewrite Hv in X1. destruct (G "id_token") as (G1 & _). rewrite MG, (G1 v X1), SK. reflexivity.
  - intros q Q A. destruct (G q) as (_ & _ & G3). rewrite MG, G3; [reflexivity|now rewrite X2|cbn; intuition congruence].
Qed.
(** the check_session and check_id requests of a session carry its newest ID Token, and
    nothing the caller did not give *)
Theorem C57_session_token : forall name conf args kw k c req c',
  dget "state" kw = Some (VStr k) -> k <> "" -> dget "pre_construct" conf = None -> NoDup (dkeys args) ->
  construct (session_token_service name conf) args kw c = (Ok req, c') ->
  c' = c /\
  (forall t, session_id_token (sdb c) k = Some (VStr t) -> t <> "" -> dget "id_token" req = Some (VStr t)) /\
  (forall p, p <> "id_token" -> dget p args = None -> dget p req = None).
Proof.
  intros name conf args kw k c req c' K KN PC N H.
  destruct (session_token_construct _ _ _ _ _ _ _ _ K KN PC N H) as (E & T & O). split; [exact E|]. split; [|exact O].
  intros t Ht Nt. apply T; [exact Ht|]. now destruct t.
Qed.
Print Assumptions C57_session_token.
(** a session the client does not know gets no request *)
Theorem C57_unknown_session : forall name conf args kw k c,
  dget "state" kw = Some (VStr k) -> dget "pre_construct" conf = None -> (forall s, get_state (sdb c) k <> Ok s) ->
  exists e, construct (session_token_service name conf) args kw c = (Err e, c).
Proof.
  intros name conf args kw k c K PC U. unfold construct, do_pre_construct, bind. rewrite method_args_plain by exact PC.
  cbn [session_token_service s_pre run_pre]. unfold bind, session_token_pre, kw_state, dict_get. rewrite K. cbn [rbind].
  destruct (key_arg (VStr k)) as [k'|e] eqn:KA; [|now exists e]. cbn [rbind]. unfold key_arg in KA.
  assert (k' = k) by congruence. subst k'.
  unfold multiple_extend_request_args.
  destruct (get_state (sdb c) k) as [s|e] eqn:G; [now elim (U s)|]. now exists e.
Qed.
Print Assumptions C57_unknown_session.
(** an ID Token kept as received, without a verified form *)
Definition ex_plain_session : ctx :=
  snd (on_db (store_item (IMsg cMessage [("id_token", VStr "a.signed.jwt")]) "token_response" ex_state) ex_c1).
Example C57_ex : exists req, fst (construct (session_token_service "check_session" []) [] [("state", VStr ex_state)] ex_plain_session) = Ok req /\
  session_id_token (sdb ex_plain_session) ex_state = Some (VStr "a.signed.jwt") /\ dget "id_token" req = Some (VStr "a.signed.jwt").
Proof. vm_compute. eexists; repeat split; reflexivity. Qed.

(** C57, deviations: after a login the ID Token put into these requests is not the signed one
    but the dictionary of its claims; *)
Example C57_claims_refuted :
  exists a, fst (do_pre_construct (session_token_service "check_session" []) [] [("state", VStr ex_state)] ex_c3) = Ok (a, []) /\
  session_raw_id_token (sdb ex_c3) ex_state = Some (VStr "eyJ.x.y") /\ dget "id_token" a = Some (VDict ex_idt).
Proof. vm_compute. eexists; repeat split; reflexivity. Qed.
(** and the request is never sent: the services have no endpoint name to find an endpoint
    under, whatever the provider publishes *)
Theorem C57_no_endpoint_refuted : forall E name conf args m bt au kw c i c',
  dget "endpoint" kw = None -> dget "" (provider_info c') = None ->
  get_request_parameters E (session_token_service name conf) args m bt au kw c <> (Ok i, c').
Proof.
  intros E name conf args m bt au kw c i c' KE PE H.
  pose proof (grp_inv _ _ _ _ _ _ _ _ _ _ H) as (req0 & c1 & h & req1 & ep & _ & _ & HE & _).
  rewrite KE in HE. unfold get_endpoint in HE. cbn in HE. unfold dict_get in HE. rewrite PE in HE. discriminate.
Qed.
Print Assumptions C57_no_endpoint_refuted.

(** ** C58 *)
Lemma lower_or_upper_given conf lo up : is_given (lower_or_upper conf lo up VNone) (given conf lo up).
Proof.
  unfold is_given, given, lower_or_upper. destruct (dget lo conf) as [x|]; destruct (dget up conf) as [y|]; cbn [truthy];
    try destruct (truthy x) eqn:Ex; try destruct (truthy y) eqn:Ey; cbn; auto.
Qed.
Lemma is_given_or v o d : is_given v o -> (if truthy v then v else d) = match o with Some x => x | None => d end \/ exists x, o = Some x /\ truthy x = false.
Proof. unfold is_given. destruct o as [x|]; [intros ->; destruct (truthy x) eqn:E; eauto|intros ->; auto]. Qed.
Lemma given_truthy conf lo up x : given conf lo up = Some x -> truthy x = true.
Proof.
  unfold given. destruct (dget lo conf) as [a|]; destruct (dget up conf) as [b|]; try discriminate;
    repeat match goal with |- context [if truthy ?z then _ else _] => destruct (truthy z) eqn:? end; congruence.
Qed.
Lemma given_or_else conf lo up d : (let v := lower_or_upper conf lo up VNone in if truthy v then v else d) = match given conf lo up with Some x => x | None => d end.
Proof.
  cbv zeta. destruct (is_given_or _ _ d (lower_or_upper_given conf lo up)) as [H | (x & H & F)]; [exact H|].
  apply given_truthy in H. congruence.
Qed.

(** each setting of the RP is the value given for it in either spelling; a missing hash seed
    is replaced by a fresh random one; keys may be given under two names *)
Theorem C58_settings : forall rnd conf,
  let r := rp_configure rnd conf in
  is_given (rc_clients r) (given conf "clients" "CLIENTS") /\
  is_given (rc_services r) (given conf "services" "SERVICES") /\
  is_given (rc_base_url r) (given conf "base_url" "BASE_URL") /\
  rc_hash_seed r = match given conf "hash_seed" "HASH_SEED" with Some x => x | None => VStr rnd end /\
  is_given (rc_key_conf r) (match given conf "rp_keys" "RP_KEYS" with Some x => Some x | None => given conf "oidc_keys" "OIDC_KEYS" end).
Proof.
  intros rnd conf. cbn [rp_configure rc_clients rc_services rc_base_url rc_hash_seed rc_key_conf].
  repeat split; try apply lower_or_upper_given.
  - exact (given_or_else conf "hash_seed" "HASH_SEED" (VStr rnd)).
  - pose proof (given_or_else conf "rp_keys" "RP_KEYS" (lower_or_upper conf "oidc_keys" "OIDC_KEYS" VNone)) as H. cbv zeta in H. rewrite H.
    destruct (given conf "rp_keys" "RP_KEYS"); [reflexivity|]. apply lower_or_upper_given.
Qed.
Print Assumptions C58_settings.

(** the arguments for HTTP calls: those given in lower case, and certificates are verified
    when none are *)
Theorem C58_http_arguments : forall rnd conf,
  (forall x, dget "httpc_params" conf = Some x -> truthy x = true -> rc_httpc_params (rp_configure rnd conf) = x) /\
  (dget "httpc_params" conf = None -> rc_httpc_params (rp_configure rnd conf) = VDict [("verify", VBool true)]) /\
  (forall x, dget "httpc_params" conf = Some x -> truthy x = false -> dget "HTTPC_PARAMS" conf = None ->
     rc_httpc_params (rp_configure rnd conf) = VDict [("verify", VBool true)]).
Proof.
  intros rnd conf. cbn [rp_configure rc_httpc_params]. unfold lower_or_upper. repeat split.
  - intros x -> T. now rewrite T.
  - now intros ->.
  - intros x -> T H. now rewrite T, H.
Qed.
Print Assumptions C58_http_arguments.

(** arguments made from a configuration: verification is off, or done with other certificates,
    only if the configuration says so; the client's certificate and key are the configured ones *)
Theorem C58_verification : forall conf v,
  dget "verify" (get_http_params conf) = Some v ->
  v = VBool true \/ dget "verify" conf = Some v \/
  (dget "verify_ssl" conf = Some v /\ (dget "verify" conf = None \/ dget "verify" conf = Some VNone)).
Proof.
  intros conf v H.
  assert (V : match dget "verify" conf with
             | Some VNone | None => match dget "verify_ssl" conf with Some v => v | None => VBool true end
             | Some v => v end = v).
  { unfold get_http_params in H. cbv zeta in H. set (w := match dget "verify" conf with Some VNone | None => _ | Some v => v end) in *.
    destruct (dget "client_cert" conf) as [x|]; [destruct (truthy x); [destruct (dget "client_key" conf) as [y|]; [destruct (truthy y)|]|]|];
      cbn in H; congruence. }
  destruct (dget "verify" conf) as [[]|]; try (right; left; congruence); destruct (dget "verify_ssl" conf); subst; auto.
Qed.
Print Assumptions C58_verification.
Theorem C58_client_certificate : forall conf,
  dget "cert" (get_http_params conf) =
  match dget "client_cert" conf, dget "client_key" conf with
  | Some cert, Some key => if truthy cert then Some (if truthy key then VList [cert; key] else cert) else None
  | Some cert, None => if truthy cert then Some cert else None
  | None, _ => None
  end.
Proof.
  intros conf. unfold get_http_params. destruct (dget "client_cert" conf) as [x|]; [|now destruct (dget "client_key" conf)].
  destruct (truthy x); [|now destruct (dget "client_key" conf)]. destruct (dget "client_key" conf) as [y|]; [|reflexivity].
  now destruct (truthy y).
Qed.
Print Assumptions C58_client_certificate.
Example C58_ex :
  let r := rp_configure "rnd" [("BASE_URL", VStr "https://rp.example"); ("hash_seed", VStr ""); ("oidc_keys", VDict [("uri_path", VStr "jwks.json")])] in
  (rc_base_url r, rc_hash_seed r, rc_key_conf r, rc_httpc_params r) =
  (VStr "https://rp.example", VStr "rnd", VDict [("uri_path", VStr "jwks.json")], VDict [("verify", VBool true)]) /\
  get_http_params [("verify_ssl", VBool false); ("client_cert", VStr "c.pem"); ("client_key", VStr "k.pem")] =
    [("verify", VBool false); ("cert", VList [VStr "c.pem"; VStr "k.pem"])].
Proof. split; reflexivity. Qed.

(** C58, deviation: arguments for HTTP calls given in upper case are ignored, unlike every
    other setting *)
Theorem C58_upper_case_refuted : exists conf x rnd,
  given conf "httpc_params" "HTTPC_PARAMS" = Some x /\ rc_httpc_params (rp_configure rnd conf) <> x.
Proof.
  exists [("HTTPC_PARAMS", VDict [("verify", VStr "/etc/ssl/own-ca.pem")])]. do 2 eexists. split; [reflexivity|]. discriminate.
  Unshelve. exact "rnd".
Qed.
Print Assumptions C58_upper_case_refuted.
