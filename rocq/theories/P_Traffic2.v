(** Proofs for T_Traffic.v: setting up a client *)
From Verif Require Import Base BaseP Json Msg M_State S_State M_Ctx M_Codec M_Authz M_ClientAuth M_Service M_Token M_Handler
  S_Service S_Token S_Handler S_Flow S_Trace S_Route P_Ctx P_Service P_Wire P_Token P_Handler
  M_Provider S_Provider P_Provider M_Registration S_Registration P_Registration M_WebFinger M_Setup S_Setup P_Setup T_Provider S_Traffic.

Lemma discovery_peer W http p :
  (e_http W (discovery_url (match dget "srv_discovery_url" (config (p_ctx p)) with Some (VStr u) => set_issuer u (p_ctx p) | _ => p_ctx p end)) "GET" None [] =
   http (discovery_url (match dget "srv_discovery_url" (config (p_ctx p)) with Some (VStr u) => set_issuer u (p_ctx p) | _ => p_ctx p end)) "GET" None []) ->
  dynamic_discovery (with_http W http) p = dynamic_discovery W p.
Proof.
  unfold dynamic_discovery. set (c := match dget "srv_discovery_url" (config (p_ctx p)) with Some (VStr u) => set_issuer u (p_ctx p) | _ => p_ctx p end).
  clearbody c. intros E. destruct (existsb _ _); [|reflexivity]. cbn [e_http e_jwt e_vrf with_http]. unfold get_response. now rewrite <- E.
Qed.
Lemma ro_provider vrf : reads_only (s_post_parse (provider_info_service vrf [])).
Proof. intros ? ? ? ? ? Y. cbn [s_post_parse provider_info_service] in Y. unfold ret in Y. congruence. Qed.
Lemma kept_provider_info m p r p' : oidc_update_provider_info m p = (r, p') -> (exists e, r = Err e /\ p' = p) \/ provider_info (p_ctx p') = m.
Proof.
  unfold oidc_update_provider_info, update_provider_info.
  destruct (match dget "issuer" m with Some i => verify_issuer i (p_ctx p) | None => Ok (issuer (p_ctx p)) end) as [i|e].
  2:{ intros H. injection H as <- <-. left. eauto. }
  cbn [p_ctx]. destruct (match_preferences m (set_provider_info m (set_issuer i (p_ctx p)))) as [r2 c2] eqn:Em.
  pose proof (match_preferences_beh _ _ _ _ Em) as B. intros H. injection H as _ <-. right. cbn [p_ctx]. rewrite B. reflexivity.
Qed.
(** what a context knows after discovery *)
Lemma discovery_source W p x p' : dynamic_discovery W p = (Ok x, p') ->
  exists resp, e_http W (discovery_url (match dget "srv_discovery_url" (config (p_ctx p)) with Some (VStr u) => set_issuer u (p_ctx p) | _ => p_ctx p end)) "GET" None [] = Ok resp /\
  (provider_info (p_ctx p') = [("http_response", VNone)] \/
   exists c m0 md0, e_vrf W "provider_info" c m0 = Ok md0 /\
     (provider_info (p_ctx p') = md0 \/ exists z, provider_info (p_ctx p') = dset "status_code" (VInt z) md0)).
Proof.
  unfold dynamic_discovery. set (c := match dget "srv_discovery_url" (config (p_ctx p)) with Some (VStr u) => set_issuer u (p_ctx p) | _ => p_ctx p end).
  clearbody c. destruct (existsb _ _); [|discriminate].
  destruct (get_response (e_http W) (e_jwt W) (provider_info_service (e_vrf W "provider_info") []) (discovery_url c) "GET" None "json" [] "" c) as [rr c1] eqn:E.
  destruct (get_response_spec _ _ _ _ _ _ _ _ _ _ _ _ (ro_provider _) E) as [-> G].
  destruct rr as [y|e]; [|discriminate]. destruct G as (resp & H1 & H2). destruct y as [m|t|h]; [|discriminate|].
  - destruct (dhas "error" m) eqn:Ee; [discriminate|]. intros U. exists resp. split; [exact H1|].
    destruct (kept_provider_info _ _ _ _ U) as [(e & X & _)|X]; [discriminate|]. right.
    assert (AC : forall m1, accepted (provider_info_service (e_vrf W "provider_info") []) c m1 -> exists m0, e_vrf W "provider_info" c m0 = Ok m1).
    { intros m1 (m0 & v & st & A & _ & B). cbn [s_vrf s_post_parse provider_info_service] in A, B. unfold ret in B. exists m0. congruence. }
    destruct H2 as [(_ & _ & [Z|Z])|(_ & m1 & -> & [Z|Z])].
    + unfold is_error_message in Z. congruence.
    + destruct (AC _ Z) as [m0 A]. eauto 10.
    + unfold is_error_message in Z. rewrite dhas_dset, Z, orb_true_r in Ee. discriminate.
    + destruct (AC _ Z) as [m0 A]. exists c, m0, m1. split; [exact A|]. right. eauto.
  - intros U. exists resp. split; [exact H1|]. destruct (kept_provider_info _ _ _ _ U) as [(e & X & _)|X]; [discriminate|]. now left.
Qed.

Lemma load_peer W http cl sha seed args c :
  (client_id c = "" -> forall u b h, dget "registration_endpoint" (provider_info c) = Some (VStr u) -> e_http W u "POST" b h = http u "POST" b h) ->
  load_registration_response (with_http W http) cl sha seed args c = load_registration_response W cl sha seed args c.
Proof.
  intros Ag. unfold load_registration_response. destruct (client_id c =?s "") eqn:Ec; [|reflexivity].
  apply String.eqb_eq in Ec. specialize (Ag Ec). cbn [e_vrf with_http].
  set (s := registration_service sha seed (e_vrf W "registration") registration_update (conf_of cl "registration")).
  assert (X : do_request_named (with_http W http) cl s args "" [] c = do_request_named W cl s args "" [] c); [|now rewrite X].
  unfold do_request_named. destruct (has_service cl (s_name s)); [|reflexivity]. cbn [e_authn e_http e_jwt with_http].
  apply (do_request_sends (e_authn W) (e_jwt W) s "" args "" [] c (fun u m b h => m = "POST" /\ dget "registration_endpoint" (provider_info c) = Some (VStr u))).
  - intros i c1 G.
    pose proof (kf_grp provider_info (e_authn W) s args "" "" "" [] eq_refl
      (kf_reg_construct provider_info ltac:(reflexivity) sha seed (e_vrf W "registration") registration_update (conf_of cl "registration") args []) c) as K.
    rewrite G in K. cbn [snd] in K.
    apply grp_inv in G. cbv zeta in G. destruct G as (req0 & c2 & h & req1 & ep & _ & _ & G3 & G4 & _ & G6 & _).
    change (s_http_method s) with "POST" in *. cbn [String.eqb eqs] in *. cbn [dget] in G3. rewrite http_url_other in G6 by reflexivity. injection G6 as ->.
    split; [exact G4|]. change (dict_get "registration_endpoint" (provider_info c1) = Ok (VStr (i_url i))) in G3.
    rewrite K in G3. unfold dict_get in G3. destruct (dget _ _); [congruence|discriminate].
  - intros u m b h (-> & D). symmetry. now apply Ag.
Qed.
Lemma provider_info_peer W http p :
  (provider_info (p_ctx p) = [] -> let u := discovery_url (match dget "srv_discovery_url" (config (p_ctx p)) with Some (VStr u) => set_issuer u (p_ctx p) | _ => p_ctx p end) in
     e_http W u "GET" None [] = http u "GET" None []) ->
  do_provider_info (with_http W http) p = do_provider_info W p.
Proof.
  intros Ag. unfold do_provider_info. destruct (provider_info (p_ctx p)) as [|kv pi]; [|reflexivity].
  cbv zeta in Ag. now rewrite (discovery_peer W http p (Ag eq_refl)).
Qed.
Lemma setup_new_peer W H http iss beh t s :
  (provider_info (cl_ctx (tm_client t)) = [] -> let c := cl_ctx (tm_client t) in
     let u := discovery_url (match dget "srv_discovery_url" (config c) with Some (VStr u) => set_issuer u c | _ => c end) in
     e_http W u "GET" None [] = http u "GET" None []) ->
  (forall v p u b h, do_provider_info W (mkp (cl_ctx (tm_client t)) (tm_eps t) []) = (Ok v, p) ->
     client_id (cl_ctx (tm_client t)) = "" -> dget "registration_endpoint" (provider_info (p_ctx p)) = Some (VStr u) ->
     e_http W u "POST" b h = http u "POST" b h) ->
  setup_new (with_http W http) H iss beh t s = setup_new W H iss beh t s.
Proof.
  intros A1 A2. unfold setup_new. rewrite (provider_info_peer W http (mkp (cl_ctx (tm_client t)) (tm_eps t) []) A1).
  destruct (do_provider_info W (mkp (cl_ctx (tm_client t)) (tm_eps t) [])) as [[v|e] p] eqn:Ep; [|reflexivity].
  destruct (provider_info_ctx _ _ _ _ Ep) as (_ & CI & _). cbn [p_ctx] in CI.
  rewrite (load_peer W http); [reflexivity|]. intros E u b h D. apply (A2 v p); congruence.
Qed.
Lemma webfinger_peer W H http user cl c :
  (forall u b h, query (hc_nok H) user = Ok u -> e_http W u "GET" b h = http u "GET" b h) ->
  do_webfinger (with_http W http) H user cl c = do_webfinger W H user cl c.
Proof.
  intros Ag. unfold do_webfinger. destruct (has_service cl "webfinger"); [|reflexivity].
  unfold webfinger_request. cbn [dget String.eqb eqs Ascii.eqb Bool.eqb]. destruct (query (hc_nok H) user) as [u|]; [|reflexivity].
  cbn [e_http e_jwt e_vrf with_http]. apply service_request_http. symmetry. now apply Ag.
Qed.
(** what WebFinger does to the context of the client for '' *)
Lemma pick_link_href rel conf l i : pick_link rel conf l = Ok (Some i) -> exists link, In (VDict link) l /\ dget "href" link = Some (VStr i).
Proof.
  induction l as [|v l IH]; [discriminate|]. cbn [pick_link]. destruct v as [| | | | |link]; try discriminate.
  unfold rbind, dict_get. destruct (dget "rel" link) as [lr|]; [|discriminate]. destruct (val_eqb lr (VStr rel)).
  - destruct (dget "href" link) as [hr|] eqn:Eh; [|discriminate]. destruct (http_allowed conf); [|discriminate].
    destruct hr; try discriminate. destruct (_ && _)%bool; [discriminate|]. intros [= <-]. exists link. split; [now left|exact Eh].
  - intros X. destruct (IH X) as (link' & I & D). exists link'. split; [now right|exact D].
Qed.
Lemma webfinger_ctx W H user cl c r c' : do_webfinger W H user cl c = (r, c') ->
  c' = c \/ exists i, webfinger_link W i /\ c' = set_issuer i c.
Proof.
  unfold do_webfinger. destruct (has_service cl "webfinger"); [|intros X; left; congruence].
  destruct (webfinger_request _ _ _ _) as [u|]; [|intros X; left; congruence].
  set (s := webfinger_service (e_vrf W "webfinger") (conf_of cl "webfinger")). intros E.
  apply service_request_spec in E; [|intros ? ? ? ? ? Y; change (s_post_parse s) with (fun (m : msg) (_ : string) => @ret msg m) in Y; unfold ret in Y; congruence].
  destruct E as [[-> _]|(resp & m & _ & _ & HA & r0 & U & _)]; [now left|].
  change (s_update s) with (fun (m : msg) (_ : string) => (update_webfinger "" (conf_of cl "webfinger") m ;;; ret m)) in U.
  cbv beta in U. unfold bind, update_webfinger in U.
  assert (V : exists c0 m0 md, e_vrf W "webfinger" c0 m0 = Ok md /\ dget "links" m = dget "links" md).
  { destruct HA as [(_ & m0 & v & st & A & _ & B)|(_ & m1 & (m0 & v & st & A & _ & B) & ->)];
      change (s_vrf s) with (e_vrf W "webfinger") in A; change (s_post_parse s) with (fun (m : msg) (_ : string) => @ret msg m) in B; unfold ret in B.
    - exists c, m0, v. split; [exact A|congruence].
    - exists c, m0, v. split; [exact A|]. rewrite dget_dset_neq by discriminate. congruence. }
  destruct V as (c0 & m0 & md & V1 & V2).
  destruct (dget "links" m) as [v|] eqn:El; [|left; congruence].
  destruct (let! l := iter_val v in pick_link (self_rel "") (conf_of cl "webfinger") l) as [[i|]|] eqn:Ep; cbn [ret] in U.
  - right. exists i. unfold ret in U. split; [|congruence].
    unfold rbind in Ep. destruct v as [| | |t|l|d]; cbn [iter_val] in Ep; try discriminate.
    + exfalso. destruct (pick_link_href _ _ _ _ Ep) as (link & I & _). clear -I. induction t as [|a t IH]; cbn in I; [contradiction|]. destruct I as [I|I]; [discriminate I|]. exact (IH I).
    + destruct (pick_link_href _ _ _ _ Ep) as (link & I & D). exists c0, m0, md, (VList l), l, link. repeat split; auto; try congruence.
    + exfalso. destruct (pick_link_href _ _ _ _ Ep) as (link & I & _). apply in_map_iff in I. destruct I as (? & X & _). discriminate.
  - left. unfold ret in U. congruence.
  - left. congruence.
Qed.

Lemma new_issuer base jw cnf : configured_issuer cnf (issuer (new_ctx base jw cnf)).
Proof.
  unfold configured_issuer, new_ctx. cbn [issuer]. destruct (dget "issuer" cnf) as [[| | |s| |]|]; cbn [str_of]; try reflexivity.
  destruct (s =?s ""); reflexivity.
Qed.
Lemma asked_well_known c : well_known (T_Provider.discovery_issuer c) (discovery_url (match dget "srv_discovery_url" (config c) with Some (VStr u) => set_issuer u c | _ => c end)).
Proof.
  unfold T_Provider.discovery_issuer. destruct (dget "srv_discovery_url" (config c)) as [[| | |u| |]|]; try apply C28_discovery_url.
Qed.
(** a client under construction: its context is new, or new but for the issuer *)
Definition constructed (W : env) (H : hconf) (iss : string) (cnf : dict val) (c : ctx) : Prop :=
  c = new_ctx (hc_base H) (hc_jwks_uri H) cnf \/
  (iss = "" /\ exists i, webfinger_link W i /\ c = set_issuer i (new_ctx (hc_base H) (hc_jwks_uri H) cnf)).
Lemma constructed_asked W H iss cnf c : constructed W H iss cnf c ->
  issuer_asked W iss cnf (T_Provider.discovery_issuer c) /\ provider_info c = sub_dict "provider_info" cnf /\
  client_id c = client_id (new_ctx (hc_base H) (hc_jwks_uri H) cnf).
Proof.
  unfold issuer_asked, T_Provider.discovery_issuer. intros [->|(E & i & L & ->)].
  - change (config (new_ctx (hc_base H) (hc_jwks_uri H) cnf)) with cnf. split; [|split; reflexivity].
    destruct (dget "srv_discovery_url" cnf) as [[| | |u| |]|]; try reflexivity; left; apply new_issuer.
  - change (config (set_issuer i (new_ctx (hc_base H) (hc_jwks_uri H) cnf))) with cnf. split; [|split; reflexivity].
    destruct (dget "srv_discovery_url" cnf) as [[| | |u| |]|]; try reflexivity; right; auto.
Qed.
Lemma setup_new_traffic W H http iss user beh key cnf cl eps s :
  constructed W H iss cnf (cl_ctx cl) ->
  (forall u m b h, setup_request W H iss user cnf u m -> e_http W u m b h = http u m b h) ->
  setup_new (with_http W http) H iss beh (mktemp key cl eps) s = setup_new W H iss beh (mktemp key cl eps) s.
Proof.
  intros C Ag. destruct (constructed_asked _ _ _ _ _ C) as (A1 & A2 & A3). apply setup_new_peer; cbn [tm_client tm_eps].
  - intros E. cbv zeta. apply Ag. eapply sr_discovery; [congruence|exact A1|apply asked_well_known].
  - intros v p u b h Ep CI D. apply Ag. eapply sr_registration; [congruence| |exact D].
    unfold do_provider_info in Ep. cbn [p_ctx p_keys p_eps] in Ep. destruct (provider_info (cl_ctx cl)) as [|kv pi] eqn:EP.
    + right. split; [congruence|]. destruct (dynamic_discovery W (mkp (cl_ctx cl) eps [])) as [[x|] p1] eqn:Ed; [|discriminate].
      assert (p1 = p) as -> by congruence. destruct (discovery_source _ _ _ _ Ed) as (resp & B1 & B2). cbn [p_ctx] in B1.
      destruct B2 as [B2|(c & m0 & md0 & B2 & B3)]; [rewrite B2 in D; discriminate|].
      exists (T_Provider.discovery_issuer (cl_ctx cl)). eexists. exists resp, c, m0, md0. split; [exact A1|]. split; [apply asked_well_known|]. auto.
    + destruct (load_configured_keys _ _ _) as [r j]. left. assert (p_ctx p = cl_ctx cl) as -> by (inversion Ep; reflexivity).
      rewrite EP. split; [congruence|congruence].
Qed.
Lemma setup_traffic W H http iss user beh s :
  (forall key cnf cfgs, use_config iss (hs_cfgs s) = (Ok (key, cnf), cfgs) -> iss = "" \/ dget iss (hs_rps s) = None ->
     forall u m b h, setup_request W H iss user cnf u m -> e_http W u m b h = http u m b h) ->
  client_setup (with_http W http) H iss user beh s = client_setup W H iss user beh s.
Proof.
  intros Ag. unfold client_setup. destruct (iss =?s "") eqn:Ei.
  - apply String.eqb_eq in Ei. subst iss. destruct (user =?s ""); [reflexivity|]. unfold init_client.
    destruct (use_config "" (hs_cfgs s)) as [[[key cnf]|] cfgs] eqn:Eu; [|reflexivity].
    specialize (Ag _ _ _ eq_refl (or_introl eq_refl)).
    destruct (hc_make H cnf) as [m|]; [|reflexivity]. cbn [rbind tm_client tm_key tm_eps cl_ctx].
    rewrite (webfinger_peer W H http); [|intros u b h Q; apply Ag; now apply sr_webfinger].
    match goal with |- context [do_webfinger W H user ?a ?b] => destruct (do_webfinger W H user a b) as [[r|] c] eqn:Ew end; [|reflexivity].
    destruct (dhas "" _); [reflexivity|]. apply setup_new_traffic with (cnf := cnf) (user := user); [|exact Ag].
    cbn [cl_ctx set_ctx]. destruct (webfinger_ctx _ _ _ _ _ _ _ Ew) as [->|(i & L & ->)]; [now left|right; eauto].
  - destruct (dhas iss (hs_rps s)) eqn:Ed; [reflexivity|]. unfold init_client.
    destruct (use_config iss (hs_cfgs s)) as [[[key cnf]|] cfgs] eqn:Eu; [|reflexivity].
    assert (dget iss (hs_rps s) = None) as N by (unfold dhas in Ed; destruct (dget iss (hs_rps s)); [discriminate|reflexivity]).
    specialize (Ag _ _ _ eq_refl (or_intror N)).
    destruct (hc_make H cnf) as [m|]; [|reflexivity]. cbn [rbind].
    apply setup_new_traffic with (cnf := cnf) (user := user); [|exact Ag]. now left.
Qed.
