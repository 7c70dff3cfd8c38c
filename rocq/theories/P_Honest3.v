(** Proofs for T_Honest.v: the token response, the user info. *)
From Verif Require Import Base BaseP Json JsonP Msg M_State S_State P_State M_Ctx M_Codec M_Authz M_ClientAuth M_Service M_Token M_Handler
  S_Service S_Token S_Handler S_Flow S_Trace S_Sched S_Retry P_Ctx P_Authz P_Codec P_ClientAuth P_Service P_Wire P_Token
  P_Token2 P_Handler P_Flow P_Trace P_Flow2 P_Handler2 P_Handler3 P_Handler4 P_Sim P_SimK P_Sched P_Retry S_Traffic S_Honest P_Honest P_Honest2.

Lemma json_text d : json_loads (h_text (json_answer d)) = Some (VDict d).
Proof. apply json_roundtrip. Qed.

(** a JSON object answered with status 200 is loaded into the response class *)
Lemma answered http jwt s u m b h st d r : http u m b h = Ok (json_answer d) -> s_resp_type s = "json" ->
  msg_new (s_rcls s) d = Ok r -> is_error_message r = false -> forall c r' r'' c',
  s_vrf s c r = Ok r' -> s_post_parse s r' st c = (Ok r'', c') -> r'' <> [] ->
  get_response http jwt s u m b "json" h st c = (Ok (RMsg r''), c').
Proof.
  intros E T N NE c r' r'' c' V P R. unfold get_response. rewrite E. unfold json_answer. cbn [h_status].
  change ((300 <=? 200) && (200 <? 400))%Z with false. change (200 <? 300)%Z with true. cbv iota.
  change ("json" =?s "") with false. cbn [andb]. change ("json" =?s "html") with false. cbv iota.
  unfold parse_request_response. cbn [h_status]. change (zmem 200 SUCCESSFUL) with true. cbv iota.
  assert (D : get_deserialization_method (mkresp 200 (Some "application/json") (json_dumps (VDict d))) = "json") by reflexivity.
  rewrite D. change (mem_str "json" ["json"; "jwt"; "urlencoded"]) with true. cbv iota. cbn [h_text].
  rewrite bind_run. unfold parse_response. change ("json" =?s "") with false. cbv iota.
  change (mem_str "json" ["jose"; "jws"; "jwe"]) with false. cbv iota. change ("json" =?s "jwt") with false. change ("json" =?s "urlencoded") with false. cbv iota.
  rewrite bind_run. unfold do_response. change ("json" =?s "json") with true. cbv iota. unfold msg_from_json. rewrite json_roundtrip.
  unfold msg_new in N. rewrite N. rewrite bind_run, NE, V, P. destruct r''; [contradiction|reflexivity].
Qed.

Lemma truthy_str v : v <> "" -> truthy (VStr v) = true.
Proof. destruct v; [congruence|reflexivity]. Qed.
Lemma shown_dict p d : shown cMessage p (VDict d) = Some (VDict d).
Proof. reflexivity. Qed.
Lemma shown_m p v : shown cMessage p v = Some v.
Proof. reflexivity. Qed.

Section Stages3.
  Variables (k iss : string).
  Hypothesis Hk : rnd32 k.
  Let i := VStr iss.
  Let Kne : k <> "" := proj1 rnd32_family k Hk.
  Let kw : dict val := [("state", VStr k)].

  (** the redemption of the code *)
  Lemma token_stage W cl c code ru pkce n sub tok tm idt : sound k i (sdb c) -> has_service cl "accesstoken" = true ->
    (exists ar, get_item (sdb c) cAuthzResponse "auth_response" k = Ok ar /\ dget "code" ar = Some (VStr code)) -> code <> "" ->
    (exists rq, get_item (sdb c) cAuthzRequest "auth_request" k = Ok rq /\ dget "redirect_uri" rq = Some (VStr ru)) -> ru <> "" ->
    uses_secret c -> pkce_ready k cl pkce (sdb c) -> token_endpoint_honest W c code ru pkce tm ->
    token_answer tok tm -> id_claims n sub idt -> get_state_by_nonce (sdb c) n = Ok k ->
    (forall m, msg_new cTokenResponse tm = Ok m -> verifies W "accesstoken" m (dset (verified "id_token") (VDict idt) m)) ->
    exists m c', get_tokens W cl k c = (Ok (RMsg m), c') /\ later k i ["token_response"] c c' /\
      dget "access_token" m = Some (VStr tok) /\ dget (verified "id_token") m = Some (VDict idt) /\
      exists it, get_item (sdb c') cMessage "token_response" k = Ok it /\ dget "access_token" it = Some (VStr tok) /\
        dget (verified "id_token") it = Some (VDict idt).
  Proof.
    intros S HS (ar & A1 & A2) Cne (rq & R1 & R2) Rne US PK (ep & EP & HT) (U & T1 & T2 & T3 & T4) (N1 & N2 & _) NC V.
    assert (exists am, client_authn_method c = Ok am) as [am AM].
    { unfold client_authn_method. destruct US as (_ & _ & [-> | [-> | ->]]); eexists; reflexivity. }
    destruct (token_request_ok k iss Hk W cl c code ru am ep pkce S Cne Rne US AM EP PK) as (r & txt & h & RQ & RD).
    destruct (msg_new_total cTokenResponse tm eq_refl) as [m0 E0]. specialize (V m0 E0).
    set (m1 := dset (verified "id_token") (VDict idt) m0) in *.
    assert (G0 : dget "access_token" m0 = Some (VStr tok)) by (exact (msg_new_get' cTokenResponse tm m0 "access_token" tok eq_refl U E0 eq_refl T1 T2)).
    assert (G1 : dget "error" m0 = None) by now rewrite (msg_new_get _ _ _ U E0), T3.
    assert (ND0 : NoDup (dkeys m0)) by (apply (msg_new_NoDup cTokenResponse tm m0); [constructor|exact E0]).
    assert (G2 : exists r1, add_expires_at (e_now W) m1 = Ok r1).
    { unfold add_expires_at, m1. rewrite dget_dset_neq by discriminate. rewrite (msg_new_get _ _ _ U E0).
      destruct (dget "expires_in" tm) as [v|]; [|eexists; reflexivity]. destruct T4 as [z ->]. eexists; reflexivity. }
    destruct G2 as [r1 G2].
    assert (K1 : forall p, p <> "__expires_at" -> dget p r1 = dget p m1) by (intros p; eapply add_expires_keys; exact G2).
    assert (ND1 : NoDup (dkeys r1)).
    { unfold add_expires_at in G2. destruct (dget "expires_in" m1) as [v|]; [destruct (to_int v); [|discriminate]|]; injection G2 as <-; [apply NoDup_dset|]; now apply NoDup_dset. }
    (* the subject, then the response *)
    destruct (on_bind k iss Hk c "subject id" sub S ltac:(cbn; tauto) ltac:(discriminate)) as (c1 & B1 & L1).
    destruct (on_store k iss Hk c1 cTokenResponse r1 "token_response" (proj1 (proj2 L1)) ltac:(discriminate)) as (c2 & B2 & L2 & I2).
    assert (UPD : oidc_token_update (e_now W) m1 k c = (Ok r1, c2)).
    { unfold oidc_token_update. assert (Vd : dget (verified "id_token") m1 = Some (VDict idt)) by apply dget_dset_eq. rewrite Vd.
      rewrite bind_run. rewrite N1, NC, eqb_refl, N2. unfold store_sub2state. rewrite B1.
      unfold store_token_response. rewrite G2. rewrite bind_run, B2. reflexivity. }
    assert (GA : dget "access_token" r1 = Some (VStr tok)) by (rewrite K1 by discriminate; unfold m1; rewrite dget_dset_neq by discriminate; exact G0).
    assert (GI : dget (verified "id_token") r1 = Some (VDict idt)) by (rewrite K1 by discriminate; apply dget_dset_eq).
    exists r1, c2. split; [|split; [|split; [exact GA|split; [exact GI|]]]].
    - unfold get_tokens. rewrite A1, R1. cbn [rbind]. unfold dict_get. rewrite A2, R2, AM. cbn [rbind].
      fold (tok_args c k (VStr code) (VStr ru)). rewrite bind_run. unfold do_request_named.
      destruct (token_svc_fields W cl) as (_ & _ & _ & _ & _ & TN & TP & TR & _ & TU & _ & TV).
      assert (SN : s_name (token_svc W cl) = "accesstoken") by (unfold token_svc; destruct (cl_pkce cl); reflexivity).
      assert (ST : s_resp_type (token_svc W cl) = "json") by (unfold token_svc; destruct (cl_pkce cl); reflexivity).
      assert (SR : s_rcls (token_svc W cl) = cTokenResponse) by (unfold token_svc; destruct (cl_pkce cl); reflexivity).
      assert (SP : s_post_parse (token_svc W cl) = pass) by (unfold token_svc; destruct (cl_pkce cl); reflexivity).
      assert (SU : s_update (token_svc W cl) = oidc_token_update (e_now W)) by (unfold token_svc; destruct (cl_pkce cl); reflexivity).
      assert (SV : s_vrf (token_svc W cl) = e_vrf W "accesstoken") by (unfold token_svc; destruct (cl_pkce cl); reflexivity).
      rewrite SN, HS. unfold do_request. rewrite bind_run. fold kw. unfold kw. rewrite RQ. cbn [i_url i_method i_body i_headers].
      change (dget "state" [("state", VStr k)]) with (Some (VStr k)). cbv iota. rewrite ST.
      change (if "" =?s "" then "json" else "") with "json". unfold service_request. rewrite bind_run.
      erewrite (answered (e_http W) (e_jwt W) (token_svc W cl) ep "POST" (Some (BText txt)) h k tm m0 (HT _ _ RD) ST);
        [|now rewrite SR|unfold is_error_message, dhas; now rewrite G1|rewrite SV; apply V|rewrite SP; reflexivity|].
      2: { unfold m1. intros Z. pose proof (dget_dset_eq (verified "id_token") (VDict idt) m0) as Y. rewrite Z in Y. discriminate. }
      unfold has_error. assert (NE : dhas "error" m1 = false) by (unfold dhas, m1; rewrite dget_dset_neq by discriminate; now rewrite G1).
      rewrite NE. rewrite bind_run, SU, UPD. unfold ret. unfold is_error_response, has_error.
      assert (NE2 : dhas "error" r1 = false) by (unfold dhas; rewrite K1 by discriminate; unfold m1; rewrite dget_dset_neq by discriminate; now rewrite G1).
      rewrite NE2. reflexivity.
    - exact (later_trans _ _ _ _ _ _ _ L1 L2).
    - destruct (msg_new_total cMessage (msg_to_dict cTokenResponse r1) eq_refl) as [it Hit]. exists it. split; [rewrite I2; exact Hit|].
      assert (SG : forall p, p <> "scope" -> dget p it = match dget p r1 with Some v => if skipped v then None else Some v | None => None end).
      { intros p Hp. rewrite (msg_new_get cMessage (msg_to_dict cTokenResponse r1) it); [|now rewrite ser_keys|exact Hit].
        rewrite ser_get. destruct (dget p r1) as [v|]; [|reflexivity]. unfold ser_param. cbn [cTokenResponse c_json c_sp mem_str existsb].
        rewrite (eqb_neq p "scope") by exact Hp. cbn [orb snd]. reflexivity. }
      split; [rewrite SG, GA by discriminate; destruct tok; [congruence|reflexivity]|]. rewrite SG, GI by discriminate; reflexivity.
  Qed.

  (** the user info *)
  Lemma userinfo_request_ok W cl c tok : dget "pre_construct" (conf_of cl "userinfo") = None -> tok <> "" ->
    (exists ep, dget "userinfo_endpoint" (provider_info c) = Some (VStr ep)) ->
    exists req, get_request_parameters (e_authn W) (userinfo_svc W cl) [("access_token", VStr tok)] "" "" "" kw c = (Ok req, c).
  Proof.
    intros PC Ne (ep & EP). destruct (userinfo_fields W cl) as (F1 & F2 & F3 & F4 & F5 & _ & _ & _ & F6 & F7 & F8 & F9).
    assert (C : construct (userinfo_svc W cl) [("access_token", VStr tok)] kw c = (Ok [("access_token", VStr tok)], c)).
    { unfold construct. rewrite bind_run. unfold do_pre_construct. rewrite F9, method_args_plain by exact PC. cbn [run_pre].
      rewrite bind_run. unfold userinfo_pre. cbn [dhas dget]. change ("access_token" =?s "access_token") with true. cbn [dhas].
      change (dhas "access_token" [("access_token", VStr tok)]) with true. cbv iota. rewrite bind_run. cbn [fst snd].
      unfold carry_state, get_state_parameter. change (dget "state" kw) with (Some (VStr k)). cbn [rbind ret].
      change (mem_str "state" (c_par (s_cls (userinfo_svc W cl)))) with false. cbv iota. cbn [fst snd]. cbv beta zeta. rewrite bind_run.
      unfold gather_request_args. rewrite F6, F7. cbn [gather_loop c_par cMessage rbind no_gather]. rewrite bind_run.
      unfold lift, msg_new, msg_from_dict. cbn [cMessage c_default]. assert (SK : skipped (VStr tok) = false) by (destruct tok; [congruence|reflexivity]).
      rewrite SK. unfold do_post_construct. rewrite F8. reflexivity. }
    unfold get_request_parameters, bind at 1 2 3, asks. change ("" =?s "") with true. cbv iota zeta beta. rewrite F2.
    change (s_authn (userinfo_svc W cl) c) with "bearer_header". rewrite C. cbv iota.
    set (kwi := if issuer c =?s "" then kw else dset "iss" (VStr (issuer c)) kw).
    rewrite bind_run. unfold get_headers. rewrite bind_run. unfold asks. change ("bearer_header" =?s "") with false. cbv iota. rewrite bind_run.
    change (s_authn (userinfo_svc W cl) c) with "bearer_header". unfold get_authn_header, authenticate. change ("bearer_header" =?s "") with false.
    change ("bearer_header" =?s "client_secret_basic") with false. change ("bearer_header" =?s "client_secret_post") with false. change ("bearer_header" =?s "bearer_header") with true. cbv iota.
    unfold bearer_header, find_token. rewrite F5. change ("userinfo" =?s "refresh_token") with false. cbv iota.
    change (dget "access_token" [("access_token", VStr tok)]) with (Some (VStr tok)). cbn [rbind]. rewrite truthy_str by exact Ne. cbn [rbind].
    rewrite bind_run, F1. cbn [run_headers fst snd]. unfold ret at 1 2. change (ddel "access_token" [("access_token", VStr tok)]) with (@nil (string * val)).
    rewrite bind_run. change (dget "endpoint" kw) with (@None val). cbv iota. unfold get_endpoint. rewrite F3, F4. change ("" =?s "") with true. cbv iota.
    unfold dict_get. rewrite EP. rewrite bind_run. unfold lift. change (get_http_url ep (sent_cls (userinfo_svc W cl) "bearer_header" [("access_token", VStr tok)]) [] "GET") with (Ok ep). cbv iota.
    change ("GET" =?s "POST") with false. cbv iota. unfold ret. eexists. reflexivity.
  Qed.
  Lemma userinfo_stage W cl c sub tok um idt : sound k i (sdb c) -> has_service cl "userinfo" = true ->
    dget "pre_construct" (conf_of cl "userinfo") = None -> tok <> "" ->
    (exists it, get_item (sdb c) cMessage "token_response" k = Ok it /\ dget (verified "id_token") it = Some (VDict idt)) ->
    get_item (sdb c) cMessage "refresh_token_response" k = Err (KeyError "refresh_token_response") ->
    dget "sub" idt = Some (VStr sub) -> userinfo_endpoint_honest W c tok um -> about_user sub um ->
    (forall m, msg_new cMessage um = Ok m -> verifies W "userinfo" m m) ->
    exists m c', get_user_info W cl k tok c = (Ok (RMsg m), c') /\ msg_new cMessage um = Ok m /\ later k i ["user_info"] c c'.
  Proof.
    intros S HS PC Ne (it & I1 & I2) RF IS (ep & EP & HT) (U & U1 & U2 & U3 & U4) V.
    destruct (userinfo_request_ok W cl c tok PC Ne (ex_intro _ ep EP)) as [r RQ].
    destruct (userinfo_grp W cl k tok c _ _ PC RQ) as (_ & _ & R1 & R2 & R3 & R4). rewrite EP in R4.
    assert (R5 : i_url r = ep) by congruence. clear R4.
    destruct (msg_new_total cMessage um eq_refl) as [m Em]. specialize (V m Em).
    assert (G : forall p, dget p m = match dget p um with Some v => if skipped v then None else Some v | None => None end).
    { intros p. rewrite (msg_new_get _ _ _ U Em). reflexivity. }
    assert (G1 : dget "sub" m = Some (VStr sub)) by (rewrite G, U1; destruct sub; [congruence|reflexivity]).
    assert (G2 : dhas "error" m = false) by (unfold dhas; now rewrite G, U3).
    assert (G3 : dget "_claim_sources" m = None) by now rewrite G, U4.
    destruct (own_tokens k Hk i (sdb c) ["id_token"] S) as (a & A1 & A2).
    assert (A3 : dget "id_token" a = Some (VDict idt)).
    { apply (A2 "id_token" RF eq_refl it _ I1). unfold offer. now rewrite I2. }
    destruct (on_store k iss Hk c cMessage m "user_info" S ltac:(discriminate)) as (c1 & B1 & L1 & _).
    assert (PP : userinfo_post_parse (e_agg W) m k c = (Ok m, c1)).
    { unfold userinfo_post_parse. rewrite bind_run. unfold read_db. rewrite A1. rewrite bind_run. unfold lift, check_sub. rewrite A3, IS, G1.
      cbn [val_eqb]. rewrite eqb_refl. rewrite bind_run, G3. rewrite bind_run, B1. reflexivity. }
    exists m, c1. split; [|split; [exact Em|exact L1]].
    destruct (userinfo_fields W cl) as (F1 & F2 & F3 & F4 & F5 & F6 & F7 & F8 & _).
    unfold get_user_info. rewrite (eqb_neq _ _ Ne). rewrite bind_run. unfold ret at 1. rewrite bind_run. unfold do_request_named.
    rewrite F5, HS. unfold do_request. rewrite bind_run. fold kw. rewrite RQ. rewrite R1, R2, R5.
    change (dget "state" kw) with (Some (VStr k)). cbv iota.
    change (if "" =?s "" then s_resp_type (userinfo_svc W cl) else "") with "json". unfold service_request. rewrite bind_run.
    erewrite (answered (e_http W) (e_jwt W) (userinfo_svc W cl) ep "GET" None (i_headers r) k um m (HT ep None (i_headers r) eq_refl R3) eq_refl Em G2);
      [|rewrite F6; apply V|rewrite F7; exact PP|intros ->; discriminate].
    unfold has_error. rewrite G2. rewrite bind_run, F8. unfold pass, ret. unfold is_error_response, has_error. rewrite G2. reflexivity.
  Qed.
End Stages3.
