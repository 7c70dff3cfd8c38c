(** Proofs for T_Dyn.v *)
From Verif Require Import Base BaseP Json JsonP Msg M_State S_State P_State M_Ctx M_Codec M_Authz M_ClientAuth M_Service M_Token M_Handler
  S_Service S_Token S_Handler S_Flow S_Trace S_Sched S_Route S_Multi P_Ctx P_Service P_Wire P_Token P_Handler P_Flow P_Trace P_Flow2 P_Route P_Multi
  M_Provider S_Provider P_Provider M_Registration S_Registration P_Registration M_WebFinger M_Setup S_Setup P_Setup T_Provider T_Registration T_Setup
  S_Traffic P_Traffic P_Traffic2 T_Traffic S_Dyn.

Lemma parse_json jwt s txt st c m c' : reads_only (s_post_parse s) -> parse_response jwt s txt "json" st c = (Ok m, c') ->
  is_error_message m = false ->
  exists m0 v, do_response jwt (issuer c) (s_rcls s) txt "json" = Ok m0 /\ s_vrf s c m0 = Ok v /\ s_post_parse s v st c = (Ok m, c).
Proof.
  intros RO H NE. unfold parse_response in H. cbn [String.eqb Ascii.eqb Bool.eqb eqs mem_str existsb orb] in H.
  change (mem_str "json" ["jose"; "jws"; "jwe"]) with false in H. cbn iota in H.
  apply bind_ok in H. destruct H as (m0 & c1 & E1 & H). injection E1 as E1 <-.
  apply bind_ok in H. destruct H as (r & c2 & E2 & H). assert (r = m /\ c2 = c') as [-> ->].
  { destruct r; [discriminate|]. injection H as -> ->. auto. }
  destruct (is_error_message m0) eqn:Em; [injection E2 as <- <-; congruence|].
  destruct (s_vrf s c m0) as [v|] eqn:Ev; [|discriminate]. exists m0, v. split; [exact E1|]. split; [exact Ev|].
  rewrite (RO _ _ _ _ _ E2) in E2. exact E2.
Qed.
Lemma do_response_says jwt iss cls resp m0 : do_response jwt iss cls (h_text resp) "json" = Ok m0 -> says cls resp m0.
Proof.
  intros H _ d m' J N. unfold do_response in H. cbn [String.eqb Ascii.eqb Bool.eqb eqs] in H. unfold msg_from_json in H. rewrite J in H.
  change (msg_from_dict cls d (c_default cls)) with (msg_new cls d) in H. rewrite N in H. congruence.
Qed.
Lemma get_response_says http jwt s u m b h st c msg c' : reads_only (s_post_parse s) ->
  get_response http jwt s u m b "json" h st c = (Ok (RMsg msg), c') -> is_error_message msg = false ->
  exists resp m0 v st' m1, http u m b h = Ok resp /\ says (s_rcls s) resp m0 /\ s_vrf s c m0 = Ok v /\ s_post_parse s v st' c = (Ok m1, c) /\
    (msg = m1 \/ msg = dset "status_code" (VInt (h_status resp)) m1).
Proof.
  intros RO H NE. destruct (get_response_spec _ _ _ _ _ _ _ _ _ _ _ _ RO H) as [-> (resp & Hh & X)].
  assert (NM : forall z m1, msg = dset "status_code" z m1 -> is_error_message m1 = false).
  { intros z m1 ->. unfold is_error_message in *. rewrite dhas_dset in NE. now apply orb_false_iff in NE. }
  assert (CTD : h_ctype resp = Some "application/json" \/ h_ctype resp <> Some "application/json") by (destruct (h_ctype resp) as [ct|]; [destruct (string_dec ct "application/json"); [left|right]; congruence|right; discriminate]).
  destruct CTD as [CT|CT].
  2:{ assert (S : forall m0, says (s_rcls s) resp m0) by (intros m0 C; contradiction).
      destruct X as [(_ & _ & [X|(m0 & v & st' & A & _ & B)])|(_ & m1 & E & [X|(m0 & v & st' & A & _ & B)])].
      - congruence.
      - exists resp, m0, v, st', msg. auto 8.
      - rewrite (NM _ _ E) in X. discriminate.
      - exists resp, m0, v, st', m1. auto 8. }
  exists resp. unfold get_response in H. rewrite Hh in H.
  destruct (_ && _)%bool in H; [discriminate|]. change ("json" =?s "") with false in H. rewrite andb_false_r in H. cbv zeta in H. change ("json" =?s "html") with false in H. rewrite andb_false_r in H. cbv iota in H.
  unfold parse_request_response in H. assert (D : get_deserialization_method resp = "json") by (unfold get_deserialization_method; rewrite CT; reflexivity).
  rewrite D in H. destruct (zmem (h_status resp) SUCCESSFUL).
  { apply bind_ok in H. destruct H as (m1 & c2 & E & H). injection H as -> ->. change (if mem_str "json" ["json"; "jwt"; "urlencoded"] then "json" else "json") with "json" in E.
    destruct (parse_json _ _ _ _ _ _ _ RO E NE) as (m0 & v & A & B & C). exists m0, v, st, msg. split; [exact Hh|]. split; [eapply do_response_says; exact A|]. auto. }
  destruct (zmem _ [302; 303]%Z); [discriminate|]. destruct (_ =? 500)%Z; [discriminate|]. destruct (_ && _)%bool in H; [|discriminate].
  cbn [String.eqb Ascii.eqb Bool.eqb eqs] in H. cbv zeta in H.
  destruct (parse_response jwt s (h_text resp) "json" "" c) as [[m1|e] c1] eqn:E.
  - injection H as <- <-. destruct (parse_json _ _ _ _ _ _ _ RO E (NM _ _ eq_refl)) as (m0 & v & A & B & C). exists m0, v, "", m1.
    split; [exact Hh|]. split; [eapply do_response_says; exact A|]. auto.
  - destruct e; try discriminate. injection H as <- <-. exfalso. vm_compute in NE. discriminate NE.
Qed.

Lemma same_issuer_dec i j : same_issuer i j \/ ~ same_issuer i j.
Proof.
  destruct (string_dec i j) as [E|N1]; [subst; left; constructor|].
  destruct (ends_with "/" j) eqn:E2.
  - destruct (ends_with "/" i) eqn:E1; [right; intros X; inversion X; subst; congruence|].
    destruct (string_dec (i ++ "/")%string j) as [E|N2]; [subst; left; now constructor|]. right. intros X. inversion X; subst; congruence.
  - destruct (string_dec i (j ++ "/")%string) as [E|N2]; [subst; left; now constructor|]. right. intros X. inversion X as [x A B|x A B Q|x A B Q]; subst; try congruence.
    rewrite (proj2 (ends_with_iff "/" (i ++ "/"))) in E2; [discriminate|eauto].
Qed.

(** ** discovery *)
Lemma discovery_publishes W p x p' : dynamic_discovery W p = (Ok x, p') -> dhas "issuer_mismatch" (allow (p_ctx p)) = false ->
  (forall c m m', e_vrf W "provider_info" c m = Ok m' -> exists i, dget "issuer" m' = Some (VStr i)) ->
  dget "issuer" (provider_info (p_ctx p')) <> None ->
  published W (T_Provider.discovery_issuer (p_ctx p)) (provider_info (p_ctx p')).
Proof.
  intros H Al Hv NI. unfold dynamic_discovery in H.
  set (c := match dget "srv_discovery_url" (config (p_ctx p)) with Some (VStr u) => set_issuer u (p_ctx p) | _ => p_ctx p end) in *.
  assert (Hc : issuer c = T_Provider.discovery_issuer (p_ctx p) /\ allow c = allow (p_ctx p)).
  { unfold c, T_Provider.discovery_issuer. destruct (dget "srv_discovery_url" _) as [[]|]; auto. }
  destruct Hc as [C1 C2]. clearbody c. destruct (existsb _ _); [|discriminate].
  destruct (get_response (e_http W) (e_jwt W) (provider_info_service (e_vrf W "provider_info") []) (discovery_url c) "GET" None "json" [] "" c) as [rr c1] eqn:E.
  assert (RO : reads_only (s_post_parse (provider_info_service (e_vrf W "provider_info") []))) by apply ro_provider.
  assert (c1 = c) as -> by apply (get_response_spec _ _ _ _ _ _ _ _ _ _ _ _ RO E).
  destruct rr as [[m|t|h]|e]; [|discriminate| |discriminate].
  2:{ exfalso. apply NI. destruct (kept_provider_info _ _ _ _ H) as [(e & X & _)|X]; [discriminate|]. now rewrite X. }
  destruct (dhas "error" m) eqn:Ee; [discriminate|].
  destruct (get_response_says _ _ _ _ _ _ _ _ _ _ _ RO E Ee) as (resp & m0 & v & st' & m1 & A1 & A2 & A3 & A4 & A5).
  cbn [s_vrf s_post_parse s_rcls provider_info_service] in A2, A3, A4. assert (v = m1) as -> by (unfold ret in A4; congruence).
  destruct (kept_provider_info _ _ _ _ H) as [(e & X & _)|X]; [discriminate|]. rewrite X.
  destruct (Hv _ _ _ A3) as [i Hi].
  assert (Hm : dget "issuer" m = Some (VStr i)) by (destruct A5 as [->| ->]; [exact Hi|now rewrite dget_dset_neq by discriminate]).
  exists (discovery_url c), resp, c, m0, m1. split; [rewrite <- C1; apply C28_discovery_url|]. split; [exact A1|]. split; [exact A2|].
  split; [exact A3|]. split; [exact A5|]. split; [exact Ee|]. exists i. split; [exact Hm|].
  assert (Al' : dhas "issuer_mismatch" (allow (p_ctx (mkp c (p_eps p) (p_keys p)))) = false) by (cbn [p_ctx]; now rewrite C2).
  destruct (C27_only_from_configured_issuer _ _ _ _ _ H Hm Al') as [_ K2]. cbn [p_ctx] in K2. rewrite C1 in K2.
  destruct (verify_issuer_spec i c _ eq_refl ltac:(now rewrite C2)) as [V1 V2]. rewrite C1 in V1, V2.
  destruct (same_issuer_dec i (T_Provider.discovery_issuer (p_ctx p))) as [D|D]; [exact D|]. destruct (K2 D) as [K3 _]. discriminate.
Qed.

(** ** registration *)
Lemma load_registers W cl sha seed args c c' : load_registration_response W cl sha seed args c = (Ok tt, c') -> client_id c = "" ->
  client_id c' = "" \/ registered W (provider_info c) (client_id c').
Proof.
  intros H He. unfold load_registration_response in H. rewrite He, eqb_refl in H.
  set (s := registration_service sha seed (e_vrf W "registration") registration_update (conf_of cl "registration")) in *.
  destruct (do_request_named W cl s args "" [] c) as [r0 c1] eqn:E.
  assert (exists x, r0 = Ok x /\ has_error x = false /\ c1 = c') as (x & -> & Ex & ->).
  { destruct r0 as [x|e]; [|destruct e; discriminate]. exists x. destruct (has_error x); [discriminate|]. split; [reflexivity|]. split; [reflexivity|congruence]. }
  clear H. unfold do_request_named in E. destruct (has_service cl (s_name s)); [|discriminate]. apply do_request_inv in E.
  destruct E as [(e & _ & X)|(i & c2 & G & Hs)]; [discriminate|].
  pose proof (kf_grp client_id (e_authn W) s args "" "" "" [] eq_refl
    (kf_reg_construct client_id ltac:(reflexivity) sha seed (e_vrf W "registration") registration_update (conf_of cl "registration") args []) c) as K1.
  pose proof (kf_grp provider_info (e_authn W) s args "" "" "" [] eq_refl
    (kf_reg_construct provider_info ltac:(reflexivity) sha seed (e_vrf W "registration") registration_update (conf_of cl "registration") args []) c) as K2.
  rewrite G in K1, K2. cbn [snd] in K1, K2. rewrite He in K1.
  apply grp_inv in G. cbv zeta in G. destruct G as (req0 & c3 & h & req1 & ep & _ & _ & G3 & G4 & _ & G6 & _).
  change (s_http_method s) with "POST" in *. cbn [String.eqb eqs] in *. cbn [dget] in G3. rewrite http_url_other in G6 by reflexivity. injection G6 as ->.
  change (dict_get "registration_endpoint" (provider_info c2) = Ok (VStr (i_url i))) in G3.
  unfold service_request in Hs. change (if "" =?s "" then s_resp_type s else "") with "json" in Hs.
  apply bind_ok in Hs. destruct Hs as (x0 & c4 & Hg & Hs).
  assert (RO : reads_only (s_post_parse s)).
  { intros ? ? ? ? ? X; change (s_post_parse s) with pass in X; unfold pass, ret in X; congruence. }
  assert (c4 = c2) as -> by apply (get_response_spec _ _ _ _ _ _ _ _ _ _ _ _ RO Hg).
  destruct (has_error x0) eqn:E0; [injection Hs as <- <-; congruence|].
  destruct x0 as [m|t|hr].
  2:{ injection Hs as _ <-. now left. }
  2:{ change (s_redirect s) with (@None exn) in Hs. injection Hs as _ <-. now left. }
  rewrite G4 in Hg. destruct (get_response_says _ _ _ _ _ _ _ _ _ _ _ RO Hg E0) as (resp & m0 & v & st' & m1 & A1 & A2 & A3 & A4 & A5).
  change (s_rcls s) with cMessage in A2. change (s_vrf s) with (e_vrf W "registration") in A3. change (s_post_parse s) with pass in A4.
  assert (v = m1) as -> by (unfold pass, ret in A4; congruence).
  apply bind_ok in Hs. destruct Hs as (m' & c5 & Hu & Hs). injection Hs as _ <-. change (s_update s) with registration_update in Hu.
  unfold registration_update in Hu. destruct (adopt_registration m (mkr c2 (VInt 0) None [])) as [m2 r'] eqn:Ea. injection Hu as _ <-.
  destruct (C45_response_adopted _ _ _ _ Ea) as (_ & _ & _ & _ & B1 & B2 & _). cbn [r_ctx] in B1, B2. rewrite K1 in B2.
  assert (DM : dget "client_id" m = dget "client_id" m1) by (destruct A5 as [->| ->]; [reflexivity|now rewrite dget_dset_neq by discriminate]).
  destruct (dget "client_id" m) as [v|] eqn:Em; [|left; now apply B2].
  assert (OTHER : str_of (Some v) = "" -> client_id (r_ctx r') = "").
  { intros Z. unfold adopt_registration in Ea. assert (DD : dget "client_id" (dsetdefault "token_endpoint_auth_method" (VStr "client_secret_basic") m) = Some v) by (unfold dsetdefault; destruct (dhas _ m); [exact Em|now rewrite dget_dset_neq by discriminate]).
    rewrite DD, Z in Ea. cbn [String.eqb eqs] in Ea.
    injection Ea as _ <-. destruct (dget "registration_access_token" _); exact K1. }
  destruct v; try (left; apply OTHER; reflexivity). destruct (string_dec s0 "") as [->|N]; [left; now apply OTHER|].
  destruct (B1 _ eq_refl N) as (B3 & _). right. rewrite B3. exists (i_url i), (i_body i), (i_headers i), resp, c2, m0, m1.
  split. { rewrite <- K2. unfold dict_get in G3. destruct (dget "registration_endpoint" (provider_info c2)); congruence. }
  split; [exact A1|]. split; [exact A2|]. split; [exact A3|]. congruence.
Qed.

(** ** the new client *)
Lemma share_config cfgs from rps i cl key cnf : dget i rps = Some cl -> dget i from = Some key -> dget key cfgs = Some cnf ->
  dget i (share cfgs from rps) = Some (set_ctx (reread cnf (cl_ctx cl)) cl).
Proof.
  intros D F K. induction rps as [|[j x] rps IH]; [discriminate|]. cbn [dget share map fst snd] in *. destruct (String.eqb_spec j i) as [->|N].
  - injection D as ->. rewrite F, K. cbn [dget]. now rewrite eqb_refl.
  - specialize (IH D). destruct (dget j from) as [key'|]; [destruct (dget key' cfgs)|]; cbn [dget]; rewrite (eqb_neq _ _ N); exact IH.
Qed.
Lemma setup_new_ok W H iss beh t s i s' cnf : setup_new W H iss beh t s = (Ok i, s') -> dget (tm_key t) (hs_cfgs s) = Some cnf ->
  exists p c2 cl' args, do_provider_info W (mkp (cl_ctx (tm_client t)) (tm_eps t) []) = (Ok (VStr i), p) /\
    load_registration_response W (tm_client t) (hc_sha H) (hc_seed H) args (p_ctx p) = (Ok tt, c2) /\
    provider_info c2 = provider_info (p_ctx p) /\ sdb c2 = sdb (cl_ctx (tm_client t)) /\
    dget i (hs_rps s') = Some cl' /\ same_but_config (set_ctx c2 (tm_client t)) cl' /\
    dget "request_args" (config (cl_ctx cl')) = dget "request_args" cnf.
Proof.
  intros E Hc. unfold setup_new in E. destruct (do_provider_info W (mkp (cl_ctx (tm_client t)) (tm_eps t) [])) as [[v|e] p] eqn:Ep; [|discriminate].
  set (args := filter (fun kv => dhas (fst kv) registration_params) beh) in *.
  destruct (provider_info_ctx _ _ _ _ Ep) as (D1 & _). cbn [p_ctx] in D1.
  pose proof (kf_load sdb ltac:(reflexivity) ltac:(reflexivity) ltac:(reflexivity) W (tm_client t) (hc_sha H) (hc_seed H) args (p_ctx p)) as K1.
  pose proof (kf_load provider_info ltac:(reflexivity) ltac:(reflexivity) ltac:(reflexivity) W (tm_client t) (hc_sha H) (hc_seed H) args (p_ctx p)) as K2.
  destruct (load_registration_response W (tm_client t) (hc_sha H) (hc_seed H) args (p_ctx p)) as [[[]|e] c2] eqn:Er; cbn [snd] in K1, K2; [|discriminate].
  destruct v as [| | |j| |]; try discriminate. injection E as <- <-. cbn [hs_rps].
  set (cfgs := write_back (tm_key t) (behaviour c2) (hs_cfgs s)). set (from := dset j (tm_key t) (hs_from s)). set (rps := dset j (set_ctx c2 (tm_client t)) (hs_rps s)).
  assert (exists cnf', dget (tm_key t) cfgs = Some cnf' /\ dget "request_args" cnf' = dget "request_args" cnf) as (cnf' & Q1 & Q2).
  { unfold cfgs, write_back. rewrite Hc. destruct (dget "behaviour" cnf) as [[]|]; try (exists cnf; auto; fail).
    eexists. split; [apply dget_dset_eq|]. now rewrite dget_dset_neq by discriminate. }
  pose proof (share_config cfgs from rps j (set_ctx c2 (tm_client t)) (tm_key t) cnf' (dget_dset_eq _ _ _) (dget_dset_eq _ _ _) Q1) as X.
  exists p, c2. eexists. exists args. split; [reflexivity|]. split; [exact Er|]. split; [exact K2|]. split; [congruence|]. split; [exact X|]. split.
  - destruct (reread_form cnf' (cl_ctx (set_ctx c2 (tm_client t)))) as [b [w ->]]. now exists b, w.
  - rewrite <- Q2. unfold reread. cbn [cl_ctx set_ctx]. reflexivity.
Qed.
Lemma new_provider W H iss user beh s i s' cnf : first_visit iss cnf s ->
  (forall c m m', e_vrf W "provider_info" c m = Ok m' -> exists j, dget "issuer" m' = Some (VStr j)) ->
  client_setup W H iss user beh s = (Ok i, s') ->
  exists m cl, published W iss m /\ dget "issuer" m = Some (VStr i) /\ dget i (hs_rps s') = Some cl /\
    provider_info (cl_ctx cl) = m /\ identity W cnf m (client_id (cl_ctx cl)) /\ sdb (cl_ctx cl) = [] /\
    dget "request_args" (config (cl_ctx cl)) = dget "request_args" cnf.
Proof.
  intros (Ni & D & (P1 & P2 & P3 & P4) & U0) Hv E. unfold client_setup in E. rewrite (eqb_neq _ _ Ni) in E. unfold dhas in E. rewrite D in E.
  assert (exists key cfgs, use_config iss (hs_cfgs s) = (Ok (key, cnf), cfgs) /\ dget key cfgs = Some cnf) as (key & cfgs & U & UK).
  { unfold use_config. destruct (dget iss (hs_cfgs s)) as [c|] eqn:Ec.
    - subst c. exists iss, (hs_cfgs s). auto.
    - destruct U0 as (c & -> & ->). exists "", (dset "" (dset "issuer" (VStr iss) c) (hs_cfgs s)). split; [reflexivity|apply dget_dset_eq]. }
  unfold init_client in E. rewrite U in E. destruct (hc_make H cnf) as [mk|e]; cbn [rbind] in E; [|discriminate].
  apply (setup_new_ok W H iss beh _ _ _ _ cnf) in E; [|exact UK]. destruct E as (p & c2 & cl' & args & Hp & Hr & R1 & R2 & D2 & S & RA).
  cbn [tm_client cl_ctx tm_eps] in Hp, R2, S.
  set (c0 := new_ctx (hc_base H) (hc_jwks_uri H) cnf) in *.
  assert (F : provider_info c0 = [] /\ allow c0 = sub_dict "allow" cnf /\ config c0 = cnf /\ issuer c0 = iss /\ client_id c0 = str_of (dget "client_id" cnf) /\ sdb c0 = []).
  { unfold c0, new_ctx. cbn [provider_info allow config issuer client_id sdb]. rewrite P2. cbn [str_of]. rewrite (eqb_neq _ _ Ni). auto 8. }
  destruct F as (F1 & F2 & F3 & F4 & F5 & F6). clearbody c0.
  destruct (sbc_facts _ _ S) as (S1 & S2 & S3 & S4 & _). cbn [cl_ctx set_ctx] in S1, S3, S4.
  unfold do_provider_info in Hp. cbn [p_ctx] in Hp. rewrite F1 in Hp.
  destruct (dynamic_discovery W (mkp c0 (md_eps mk) [])) as [[x|e] p1] eqn:Ed; [|discriminate]. apply pair_inv in Hp as [Hp <-].
  pose proof (discovery_publishes _ _ _ _ Ed) as O. cbn [p_ctx] in O. rewrite F2 in O.
  assert (DI : T_Provider.discovery_issuer c0 = iss) by (unfold T_Provider.discovery_issuer; rewrite F3, P4; exact F4). rewrite DI in O.
  unfold dict_get in Hp. destruct (dget "issuer" (provider_info (p_ctx p1))) as [v|] eqn:Ei; [|discriminate]. injection Hp as ->.
  specialize (O P3 Hv ltac:(discriminate)).
  destruct (provider_info_ctx W (mkp c0 (md_eps mk) []) (Ok (VStr i)) p1) as (_ & CI & _).
  { unfold do_provider_info. cbn [p_ctx]. rewrite F1, Ed. unfold dict_get. now rewrite Ei. }
  cbn [p_ctx] in CI. exists (provider_info (p_ctx p1)), cl'. split; [exact O|]. split; [exact Ei|]. split; [exact D2|]. split; [congruence|]. split; [|split; [congruence|exact RA]].
  rewrite S3. assert (RG : str_of (dget "client_id" cnf) = "" -> registered W (provider_info (p_ctx p1)) (client_id c2) \/ client_id c2 = "").
  { intros Z. destruct (load_registers _ _ _ _ _ _ _ Hr); [congruence|auto|auto]. }
  assert (KP : str_of (dget "client_id" cnf) <> "" -> client_id c2 = str_of (dget "client_id" cnf)).
  { intros Z. unfold load_registration_response in Hr. rewrite (eqb_neq (client_id (p_ctx p1)) "") in Hr by congruence. injection Hr as <-. congruence. }
  unfold identity. destruct (dget "client_id" cnf) as [[| | |z| |]|]; try (apply RG; reflexivity). cbn [str_of] in *.
  destruct (String.eqb_spec z "") as [->|N]; [now apply RG|now apply KP].
Qed.
