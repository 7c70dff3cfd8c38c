(** More proofs for T_Handler.v *)
From Verif Require Import Base BaseP Json JsonP Msg M_State S_State P_State M_Ctx M_Codec M_Authz M_ClientAuth
  M_Service M_Token M_Handler S_Service S_Token S_Handler S_Flow S_Trace P_Ctx P_Authz P_Codec P_ClientAuth P_Service P_Wire P_Token
  P_Handler P_Flow P_Token2 P_Trace P_Flow2 P_Handler2.

(** ** C15 *)
Lemma offers_held d k o1 o2 o3 :
  offer_of (get_item d cTokenResponse "refresh_token_response" k) o1 ->
  offer_of (get_item d cTokenResponse "token_response" k) o2 ->
  offer_of (get_item d cAuthzResponse "auth_response" k) o3 ->
  let l (o : option (val * option val)) := match o with Some x => [x] | None => [] end in
  forall a e, In (a, e) (l o1 ++ l o2 ++ l o3) <-> held d k a e.
Proof.
  intros O1 O2 O3 l a e. rewrite !in_app_iff. pose proof (offer_holds _ _ _ _ _ O1 a e) as H1.
  pose proof (offer_holds _ _ _ _ _ O2 a e) as H2. pose proof (offer_holds _ _ _ _ _ O3 a e) as H3.
  assert (L : forall o, In (a, e) (l o) <-> o = Some (a, e)).
  { intros [x|]; cbn; split; [intros [->|[]]; reflexivity|intros [= ->]; auto|contradiction|discriminate]. }
  rewrite !L, H1, H2, H3. unfold held, token_kinds. split.
  - intros [H|[H|H]]; do 2 eexists; (split; [|exact H]); cbn; auto.
  - intros (t & c & [I|[I|[I|[]]]] & H); injection I as <- <-; auto.
Qed.
Lemma valid_token_ok now d k a e : get_valid_access_token now d k = Ok (a, e) ->
  (e = 0%Z /\ exists before t c after, token_kinds = before ++ (t, c) :: after /\ holds_token d k t c a None /\
      forall t' c' a', In (t', c') before -> ~ holds_token d k t' c' a' None) \/
  ((now < e)%Z /\ held d k a (Some (VInt e)) /\ (forall a', ~ held d k a' None) /\
   forall a' v, held d k a' (Some v) -> exists x, v = VInt x /\ ((now < x)%Z -> (x <= e)%Z)).
Proof.
  intros H. destruct (valid_token_run _ _ _ _ H) as [(x & E & _)|(o1 & o2 & o3 & ind & tok & ex & O1 & O2 & O3 & I & R)]; [discriminate|].
  cbv zeta in I. pose proof (offers_held d k o1 o2 o3 O1 O2 O3) as OH. cbv zeta in OH.
  destruct I as (I1 & I2 & I3 & I4). destruct ind as [|b ind].
  - right. destruct tok as [[b x]|]; [|discriminate]. injection R as -> ->. destruct I2 as (-> & I5 & I6).
    split; [assumption|]. split; [now apply OH|]. split.
    + intros a' Ha. apply OH in Ha.
      assert (In a' (map fst (filter (fun o : val * option val => match snd o with None => true | Some _ => false end)
        (match o1 with Some x => [x] | None => [] end ++ match o2 with Some x => [x] | None => [] end ++ match o3 with Some x => [x] | None => [] end)))).
      { apply in_map_iff. exists (a', None). split; [reflexivity|]. apply filter_In. auto. }
      rewrite <- I1 in H0. contradiction.
    + intros a' v Hv. apply OH in Hv. destruct (I4 _ _ Hv) as (y & -> & Hy). exists y. split; [reflexivity|lia].
  - left. injection R as -> ->. split; [reflexivity|]. unfold token_kinds.
    pose proof (offer_holds _ _ _ _ _ O1) as H1. pose proof (offer_holds _ _ _ _ _ O2) as H2. pose proof (offer_holds _ _ _ _ _ O3) as H3.
    assert (N : forall t c o, (forall a e, o = Some (a, e) <-> holds_token d k t c a e) -> (forall x, o <> Some (x, None)) -> forall a', ~ holds_token d k t c a' None).
    { intros t c o HH HN a' Ha. apply HH in Ha. now apply (HN a'). }
    destruct o1 as [[a1 [e1|]]|]; cbn [app filter snd map fst] in I1.
    2:{ injection I1 as -> _. exists [], "refresh_token_response", cTokenResponse. eexists. split; [reflexivity|]. split; [now apply H1|]. easy. }
    all: assert (N1 : forall a', ~ holds_token d k "refresh_token_response" cTokenResponse a' None) by (eapply N; [exact H1|discriminate]).
    all: destruct o2 as [[a2 [e2|]]|]; cbn [app filter snd map fst] in I1.
    all: try (injection I1 as -> _; exists [("refresh_token_response", cTokenResponse)], "token_response", cTokenResponse; eexists; split; [reflexivity|];
         split; [now apply H2|]; intros t' c' a' [I|[]]; injection I as <- <-; apply N1).
    all: assert (N2 : forall a', ~ holds_token d k "token_response" cTokenResponse a' None) by (eapply N; [exact H2|discriminate]).
    all: destruct o3 as [[a3 [e3|]]|]; cbn [app filter snd map fst] in I1; try discriminate.
    all: injection I1 as -> _; exists [("refresh_token_response", cTokenResponse); ("token_response", cTokenResponse)], "auth_response", cAuthzResponse; eexists;
       split; [reflexivity|]; split; [now apply H3|]; intros t' c' a' [I|[I|[]]]; injection I as <- <-; auto.
Qed.
Lemma valid_token_none now d k : (0 <= now)%Z -> get_valid_access_token now d k = Err OidcServiceError ->
  (exists t c, In (t, c) token_kinds /\ get_item d c t k = Err OidcServiceError) \/
  forall a e, held d k a e -> exists x, e = Some (VInt x) /\ (x <= now)%Z.
Proof.
  intros N H. destruct (valid_token_run _ _ _ _ H) as [(x & E & t & c & T & [[G _]|[-> _]])|(o1 & o2 & o3 & ind & tok & ex & O1 & O2 & O3 & I & R)]; [| discriminate |].
  { injection E as <-. left. eauto. }
  right. cbv zeta in I. pose proof (offers_held d k o1 o2 o3 O1 O2 O3) as OH. cbv zeta in OH.
  destruct I as (I1 & I2 & I3 & I4). destruct ind as [|b ind]; [|discriminate]. destruct tok as [[b x]|]; [discriminate|].
  intros a [v|] Hv; apply OH in Hv.
  - destruct (I4 _ _ Hv) as (y & -> & Hy). exists y. split; [reflexivity|]. subst ex. lia.
  - exfalso. assert (X : In a (map fst (filter (fun o : val * option val => match snd o with None => true | Some _ => false end)
        (match o1 with Some x => [x] | None => [] end ++ match o2 with Some x => [x] | None => [] end ++ match o3 with Some x => [x] | None => [] end)))).
    { apply in_map_iff. exists (a, None). split; [reflexivity|]. apply filter_In. auto. }
    rewrite <- I1 in X. contradiction.
Qed.
(** every other outcome comes from an unreadable item or an expiry that is no number *)
Lemma valid_token_err now d k e : get_valid_access_token now d k = Err e ->
  (forall t c, In (t, c) token_kinds -> forall e', get_item d c t k = Err e' -> is_key_error e' = true) ->
  (forall a v, held d k a (Some v) -> exists z, v = VInt z) -> e = OidcServiceError.
Proof.
  intros H H1 H2. destruct (valid_token_run _ _ _ _ H) as [(x & E & t & c & T & [[G1 G2]|[-> (a & v & G1 & G2)]])|(o1 & o2 & o3 & ind & tok & ex & _ & _ & _ & _ & R)].
  - rewrite (H1 _ _ T _ G1) in G2. discriminate.
  - destruct (H2 a v) as [z ->]; [exists t, c; auto|]. now destruct (G2 z).
  - destruct ind; [destruct tok; congruence|discriminate].
Qed.

(** ** C19 *)
Lemma end_fields W cl : let s := end_session_svc W cl in
  s_http_method s = "GET" /\ s_extra s = [] /\ (forall c, s_authn s c = "") /\ s_endpoint s = "" /\ s_endpoint_name s = "end_session_endpoint" /\
  s_pre s = [end_id_token_hint; end_post_logout_uri; end_add_state (e_lstate W)] /\ s_post s = [] /\ s_gather s = no_gather /\
  s_cls s = cEndSessionRequest /\ s_conf s = conf_of cl "end_session".
Proof. repeat split. Qed.
Definition raw_offer : forall m, offer true m "id_token" = dget "id_token" m := fun m => eq_refl.
Lemma newest_with_ext f g d k ts : (forall m, f m = g m) -> newest_with f d k ts = newest_with g d k ts.
Proof. intros H. induction ts as [|t ts IH]; [reflexivity|]. cbn. rewrite IH. destruct (newest_with g d k ts); [reflexivity|]. destruct (get_item d cMessage t k); auto. Qed.
Lemma logout_construct W cl st uri c req c' : rnd32 st -> dget "pre_construct" (conf_of cl "end_session") = None ->
  construct (end_session_svc W cl) (if uri =?s "" then [] else [("post_logout_redirect_uri", VStr uri)]) [("state", VStr st)] c = (Ok req, c') ->
  NoDup (dkeys req) /\
  (forall v, session_raw_id_token (sdb c) st = Some (VStr v) -> v <> "" -> dget "id_token_hint" req = Some (VStr v)) /\
  (e_lstate W <> "" -> dget "state" req = Some (VStr (e_lstate W))) /\
  (uri <> "" -> dget "post_logout_redirect_uri" req = Some (VStr uri)) /\
  (uri = "" -> forall u, logout_uri c = Ok (Some (VStr u)) -> u <> "" -> dget "post_logout_redirect_uri" req = Some (VStr u)) /\
  get_state_by_logout_state (sdb c') (e_lstate W) = Ok st /\
  (forall k, rnd32 k -> get_state (sdb c') k = get_state (sdb c) k) /\ c' = set_db (sdb c') c.
Proof.
  intros HK PC H. destruct (end_fields W cl) as (_ & _ & _ & _ & _ & F1 & F2 & F3 & F4 & F5). cbv zeta in *.
  generalize dependent (end_session_svc W cl). intros s H F1 F2 F3 F4 F5.
  apply construct_inv in H. destruct H as (a & post & c1 & out & req0 & H1 & H2 & H3 & H4).
  unfold do_post_construct in H4. rewrite F2 in H4. cbn [run_post] in H4. unfold ret in H4. injection H4 as -> ->.
  unfold do_pre_construct in H1. rewrite F1, method_args_plain in H1 by (rewrite F5; exact PC).
  match type of H1 with context [run_pre _ ?a _ _] => remember a as args eqn:EA end. cbn [run_pre] in H1.
  assert (NA : NoDup (dkeys args)) by (rewrite EA; destruct (uri =?s ""); [constructor|]; cbn; constructor; [easy|constructor]).
  assert (AG0 : forall p, p <> "post_logout_redirect_uri" -> dget p args = None).
  { intros p Hp. rewrite EA. destruct (uri =?s ""); [reflexivity|]. cbn [dget]. now rewrite eqb_neq by congruence. }
  assert (AG1 : uri <> "" -> dget "post_logout_redirect_uri" args = Some (VStr uri)).
  { intros Ne. rewrite EA. now rewrite (eqb_neq _ _ Ne). }
  assert (AG2 : uri = "" -> dget "post_logout_redirect_uri" args = None) by (intros E; rewrite EA, E; reflexivity).
  clear EA.
  apply bind_ok in H1. destruct H1 as ([a1 p1] & d1 & E1 & H1). cbn [fst snd] in H1.
  apply bind_ok in H1. destruct H1 as ([a2 p2] & d2 & E2 & H1). cbn [fst snd] in H1.
  apply bind_ok in H1. destruct H1 as ([a3 p3] & d3 & E3 & H1). cbn [fst snd] in H1. unfold ret in H1. injection H1 as <- <- <-.
  (* id token hint *)
  unfold end_id_token_hint in E1.
  change (kw_state [("state", VStr st)]) with (Ok st : res string) in E1. cbn [rbind] in E1.
  destruct (multiple_extend_request_args (sdb c) args st ["id_token"] token_items true) as [b|] eqn:EX; cbn [rbind] in E1; [|discriminate E1].
  injection E1 as <- <- <-. destruct (extend_with _ _ _ _ _ _ _ EX) as [X1 X2].
  assert (NB : NoDup (dkeys b)) by (eapply mult_extend_NoDup; eauto).
  assert (RAW : newest_with (fun m => offer true m "id_token") (sdb c) st token_items = session_raw_id_token (sdb c) st) by (apply newest_with_ext; reflexivity).
  rewrite RAW in X1.
  set (b1 := match dget "id_token" b with Some v => ddel "id_token" (dset "id_token_hint" v b) | None => b end) in *.
  assert (N1 : NoDup (dkeys b1)) by (unfold b1; destruct (dget "id_token" b); [apply NoDup_ddel', NoDup_dset|]; exact NB).
  assert (HINT : forall v, session_raw_id_token (sdb c) st = Some v -> dget "id_token_hint" b1 = Some v).
  { intros v Hv. unfold b1. rewrite X1, Hv. rewrite dget_ddel_neq by discriminate. apply dget_dset_eq. }
  assert (B1 : forall p, p <> "id_token" -> p <> "id_token_hint" -> dget p b1 = dget p args).
  { intros p P1 P2. unfold b1. destruct (dget "id_token" b); [rewrite dget_ddel_neq, dget_dset_neq by congruence|]; now apply X2. }
  (* post logout uri *)
  unfold end_post_logout_uri in E2.
  assert (S2 : d2 = c /\ p2 = [] /\ NoDup (dkeys a2) /\ (forall p v, dget p b1 = Some v -> dget p a2 = Some v) /\ (forall p, p <> "post_logout_redirect_uri" -> dget p a2 = dget p b1) /\
    (dget "post_logout_redirect_uri" b1 = None -> forall v, logout_uri c = Ok (Some v) -> dget "post_logout_redirect_uri" a2 = Some v)).
  { unfold dhas in E2. destruct (dget "post_logout_redirect_uri" b1) eqn:PU.
    - injection E2 as <- <- <-. repeat split; auto. discriminate.
    - destruct (logout_uri c) as [[u|]|]; cbn [rbind] in E2; [| |discriminate]; injection E2 as <- <- <-.
      + repeat split; auto.
        * now apply NoDup_dset.
        * intros p v Hp. rewrite dget_dset_neq; [assumption|]. intros <-. congruence.
        * intros p Hp. now rewrite dget_dset_neq by congruence.
        * intros _ v [= <-]. apply dget_dset_eq.
      + repeat split; auto. discriminate. }
  destruct S2 as (-> & -> & N2 & A21 & A22 & A23).
  (* logout state *)
  unfold end_add_state in E3. change (kw_state [("state", VStr st)]) with (Ok st : res string) in E3.
  assert (ST : dget "state" a2 = None).
  { rewrite A22, B1 by discriminate. now apply AG0. }
  rewrite dget_dsetdefault, ST in E3. cbn [String.eqb] in E3. change ("state" =?s "state") with true in E3. cbv iota in E3.
  apply bind_ok in E3. destruct E3 as (x & d4 & E3 & E4). unfold ret in E4. injection E4 as <- <- <-.
  unfold on_db in E3. destruct (store_logout_state2state (e_lstate W) st (sdb c)) as [r d'] eqn:E5. injection E3 as -> <-.
  destruct (store_x_effect "logout state" _ _ _ _ _ in_logout E5) as [I1 I2].
  assert (A3 : forall p v, dget p a2 = Some v -> dget p (dsetdefault "state" (VStr (e_lstate W)) a2) = Some v) by (intros p v Hp; now rewrite dget_dsetdefault, Hp).
  assert (A3' : dget "state" (dsetdefault "state" (VStr (e_lstate W)) a2) = Some (VStr (e_lstate W))) by (rewrite dget_dsetdefault, ST; reflexivity).
  assert (N3 : NoDup (dkeys (dsetdefault "state" (VStr (e_lstate W)) a2))) by now apply NoDup_dsetdefault.
  set (a3 := dsetdefault "state" (VStr (e_lstate W)) a2) in *.
  assert (SD : state_default s [("state", VStr st)] a3 = dsetdefault "state" (VStr st) a3) by (unfold state_default; rewrite F4; reflexivity).
  rewrite SD in H2.
  destruct (gather_any _ _ _ _ F3 H2) as [NO GO]. specialize (NO (NoDup_dsetdefault _ _ _ N3)).
  assert (G : forall p v, dget p a3 = Some v -> dget p out = Some v) by (intros p v Hp; apply GO; now rewrite dget_dsetdefault, Hp).
  rewrite F4 in H3.
  assert (Q : forall p v, dget p a3 = Some (VStr v) -> v <> "" -> dget p req = Some (VStr v)).
  { intros p v Hp Hv. rewrite (msg_new_get _ _ _ NO H3), (G _ _ Hp). unfold skipped. rewrite shown_plain by reflexivity.
    destruct v; [easy|reflexivity]. }
  split; [eapply msg_new_NoDup; [|exact H3]; constructor|].
  split. { intros v Hv Ne. apply Q; [|exact Ne]. apply A3, A21, HINT, Hv. }
  split. { intros Ne. now apply Q. }
  split. { intros Ne. apply Q; [|exact Ne]. apply A3, A21. rewrite B1 by discriminate. now apply AG1. }
  split. { intros UE u Hu Ne. apply Q; [|exact Ne]. apply A3, A23; [|exact Hu]. rewrite B1 by discriminate. now apply AG2. }
  split. { apply (by_x_bound "logout state"); [apply in_logout| |exact I1]. destruct HK as [L _]. destruct st; discriminate. }
  split; [|reflexivity].
  intros k Hk. unfold get_state. cbn [sdb set_db]. rewrite I2; [reflexivity| |].
  - intros E. symmetry in E. revert E. apply (K_idx rnd32 rnd32_family); [assumption|apply in_logout].
  - intros E. symmetry in E. revert E. now apply (K_ref rnd32 rnd32_family).
Qed.
Lemma logout_request W cl st uri c i c' ep : rnd32 st -> dget "pre_construct" (conf_of cl "end_session") = None ->
  dget "end_session_endpoint" (provider_info c) = Some (VStr ep) ->
  logout W cl st uri c = (Ok i, c') ->
  i_method i = "GET" /\ i_body i = None /\ u_base (urlsplit (i_url i)) = u_base (urlsplit ep) /\
  get_state_by_logout_state (sdb c') (e_lstate W) = Ok st /\
  (forall k, rnd32 k -> get_state (sdb c') k = get_state (sdb c) k) /\ c' = set_db (sdb c') c /\
  (u_query (urlsplit ep) = "" ->
    (forall v, session_raw_id_token (sdb c) st = Some (VStr v) -> v <> "" -> query_has (i_url i) "id_token_hint" v) /\
    (e_lstate W <> "" -> query_has (i_url i) "state" (e_lstate W)) /\
    (uri <> "" -> query_has (i_url i) "post_logout_redirect_uri" uri) /\
    (uri = "" -> forall u, logout_uri c = Ok (Some (VStr u)) -> u <> "" -> query_has (i_url i) "post_logout_redirect_uri" u)).
Proof.
  intros HK PC EP H. unfold logout in H. destruct (has_service cl "end_session"); [|discriminate].
  destruct (end_fields W cl) as (F1 & F2 & F3 & F4 & F5 & _). cbv zeta in *.
  destruct (get_url _ _ _ _ _ _ _ F1 F2 F3 H) as (ep' & G1 & G2 & G3 & _ & G4 & G5 & G6).
  destruct (logout_construct _ _ _ _ _ _ _ HK PC G1) as (L0 & L1 & L2 & L3 & L4 & L5 & L6 & L7).
  assert (X : ep' = ep).
  { change (dget "endpoint" [("state", VStr st)]) with (@None val) in G4. cbv iota in G4.
    assert (PI : provider_info c' = provider_info c) by (rewrite L7; reflexivity).
    assert (GE : get_endpoint (end_session_svc W cl) c' = dict_get "end_session_endpoint" (provider_info c')) by reflexivity.
    rewrite GE, PI in G4. unfold dict_get in G4. rewrite EP in G4. congruence. }
  subst ep'. repeat (split; [assumption|]). intros Q. destruct (G6 Q) as (U & _). specialize (U L0). unfold query_has.
  split; [|split; [|split]]; intros; apply U; auto.
Qed.
Lemma logout_needs_service W cl st uri c : has_service cl "end_session" = false -> logout W cl st uri c = (Err AttributeError, c).
Proof. intros H. unfold logout. now rewrite H. Qed.

(** ** C40 *)
Lemma post_form_headers E s args au kw c i c' : s_http_method s = "POST" -> s_req_type s = "urlencoded" -> s_extra s = [] ->
  get_request_parameters E s args "" "" au kw c = (Ok i, c') ->
  exists req0 txt h kw', construct s args kw c = (Ok req0, c') /\ i_body i = Some (BText txt) /\
    get_authn_header E s c' req0 (if (if au =?s "" then s_authn s c else au) =?s "" then s_authn s c' else (if au =?s "" then s_authn s c else au)) kw' = Ok (h, i_request i) /\
    i_headers i = dset "Content-Type" URL_ENCODED h.
Proof.
  intros Hm Ht He H. apply grp_inv in H. cbv zeta in H. cbn [String.eqb eqs] in H. rewrite Hm, Ht in H.
  destruct H as (req0 & c1 & h & req1 & ep & H1 & H2 & H3 & H4 & H5 & H6 & H7). simpl in H7.
  destruct H7 as (b & H7 & H8 & H9).
  change (body_content_type "urlencoded") with URL_ENCODED in *. unfold get_http_body in H7.
  change (contains URL_ENCODED URL_ENCODED) with true in H7. cbv iota in H7. unfold rbind in H7.
  match type of H7 with context [msg_to_urlencoded ?a ?b] => destruct (msg_to_urlencoded a b) as [txt|] eqn:Et end; [|discriminate].
  injection H7 as <-.
  unfold get_headers in H2. rewrite He in H2. unfold bind, asks, ret, run_headers in H2.
  match type of H2 with context [get_authn_header ?a ?b ?d ?e ?f ?g] => destruct (get_authn_header a b d e f g) as [[h1 r1]|] eqn:E1 end; [|discriminate].
  cbn [fst snd] in H2. injection H2 as <- <- <-. rewrite H5. do 4 eexists. split; [exact H1|]. split; [exact H8|]. split; [exact E1|exact H9].
Qed.
Lemma refresh_svc_fields W cl : let s := refresh_svc W cl in
  s_http_method s = "POST" /\ s_req_type s = "urlencoded" /\ s_extra s = [] /\ s_endpoint s = "" /\ s_endpoint_name s = "token_endpoint" /\
  s_pre s = [refresh_pre (c_par cRefreshRequest)] /\ s_post s = [] /\ s_gather s = no_gather /\ s_cls s = cRefreshRequest /\ s_name s = "refresh_token".
Proof. repeat split. Qed.
(** a method that is not a bearer method leaves the refresh token in the body *)
Lemma authenticate_refresh E meth cls atr c kwargs ha req ha' r rt :
  authenticate E meth "refresh_token" cls atr c kwargs ha req = Ok (ha', r) -> dget "refresh_token" req = Some (VStr rt) ->
  (meth = "bearer_header" /\ dget "refresh_token" r = None /\ exists hs, ha' = Some hs /\ dget "Authorization" hs = Some ("Bearer " ++ rt)%string) \/
  meth = "bearer_body" \/ dget "refresh_token" r = Some (VStr rt).
Proof.
  intros H HR. unfold authenticate in H.
  destruct (meth =?s "client_secret_basic").
  { right; right. unfold client_secret_basic, basic_modify, rbind in H.
    destruct (get_user c kwargs); try discriminate H. destruct (get_passwd c req kwargs); try discriminate H.
    destruct (with_or_without_client_id cls atr c (ddel "client_secret" req)) eqn:E1; [|discriminate H].
    injection H as _ <-. destruct (with_or_without_frame _ _ _ _ _ "refresh_token" E1) as [G N]; [discriminate|].
    now rewrite G, dget_ddel_other by discriminate. }
  destruct (meth =?s "client_secret_post").
  { right; right. pose proof (post_spec c kwargs ha req) as P. rewrite H in P. destruct P as (_ & _ & _ & P). now rewrite P by discriminate. }
  destruct (String.eqb_spec meth "bearer_header") as [->|NB].
  { left. split; [reflexivity|]. destruct (bearer_header_spec _ _ _ _ _ _ _ H) as (t & hs & T1 & T2 & T3 & T4 & _).
    change ("refresh_token" =?s "refresh_token") with true in T1. cbv iota in T1. rewrite (find_token_request _ _ _ _ _ HR) in T1. injection T1 as <- <-.
    split; [apply dget_ddel_same|]. eauto. }
  destruct (String.eqb_spec meth "bearer_body") as [->|NBB]; [auto|]. right; right.
  destruct (_ || _); [|discriminate]. unfold jws_authn, jws_modify, rbind in H.
  assert (S : forall v (m : msg), dget "refresh_token" (dset "client_assertion" v m) = dget "refresh_token" m) by (intros; now apply dget_dset_neq).
  assert (T : forall v (m : msg), dget "refresh_token" (dset "client_assertion_type" v m) = dget "refresh_token" m) by (intros; now apply dget_dset_neq).
  assert (D : forall v (m : msg), dget "refresh_token" (dsetdefault "client_assertion_type" v m) = dget "refresh_token" m).
  { intros. rewrite dget_dsetdefault. now destruct (dget "refresh_token" m). }
  assert (X : forall m : msg, dget "refresh_token" (ddel "client_secret" m) = dget "refresh_token" m) by (intros; now apply dget_ddel_other).
  assert (Y : forall m : msg, dget "refresh_token" (ddel "client_id" m) = dget "refresh_token" m) by (intros; now apply dget_ddel_other).
  brk; destruct (mem_str "client_id" (c_req cls)); rewrite ?Y, ?X, ?T, ?S, ?D, ?T, ?S; exact HR.
Qed.
Definition refresh_args (scope : string) : dict val := if scope =?s "" then [] else [("scope", VStr scope)].
Lemma refresh_construct W cl st scope c req c' rt it : dget "pre_construct" (conf_of cl "refresh_token") = None ->
  (forall e, get_item (sdb c) cTokenResponse "refresh_token_response" st <> Ok e) ->
  get_item (sdb c) cTokenResponse "token_response" st = Ok it -> dget "refresh_token" it = Some (VStr rt) ->
  dget (verified "refresh_token") it = None -> rt <> "" ->
  construct (refresh_svc W cl) (refresh_args scope) [("state", VStr st)] c = (Ok req, c') ->
  c' = c /\ NoDup (dkeys req) /\ dget "refresh_token" req = Some (VStr rt).
Proof.
  intros PC NI HI HR HV Ne H. destruct (refresh_svc_fields W cl) as (_ & _ & _ & _ & _ & F1 & F2 & F3 & F4 & _). cbv zeta in *.
  assert (F5 : s_conf (refresh_svc W cl) = conf_of cl "refresh_token") by reflexivity.
  generalize dependent (refresh_svc W cl). intros s H F1 F2 F3 F4 F5.
  apply construct_inv in H. destruct H as (a & post & c1 & out & req0 & H1 & H2 & H3 & H4).
  unfold do_post_construct in H4. rewrite F2 in H4. cbn [run_post] in H4. unfold ret in H4. injection H4 as <- ->.
  unfold do_pre_construct in H1. rewrite F1, method_args_plain in H1 by (rewrite F5; exact PC). cbn [run_pre] in H1.
  apply bind_ok in H1. destruct H1 as ([a1 p1] & d1 & E1 & H1). cbn [fst snd] in H1. unfold ret in H1. injection H1 as <- <- <-.
  assert (NA : NoDup (dkeys (refresh_args scope))) by (unfold refresh_args; destruct (scope =?s ""); [constructor|]; cbn; constructor; [easy|constructor]).
  assert (RA : dget "refresh_token" (refresh_args scope) = None) by (unfold refresh_args; destruct (scope =?s ""); reflexivity).
  destruct (refresh_pre_spec _ _ _ _ _ _ _ _ st E1 eq_refl NA) as (-> & -> & N1 & _ & G). specialize (G "refresh_token" RA eq_refl).
  rewrite HI in G. assert (G' : dget "refresh_token" a1 = Some (VStr rt)).
  { rewrite G. destruct (get_item (sdb c) cTokenResponse "refresh_token_response" st) as [x|]; [now destruct (NI x)|]. unfold offer. now rewrite HV, HR. }
  split; [reflexivity|].
  assert (SD : state_default s [("state", VStr st)] a1 = a1) by (unfold state_default; rewrite F4; reflexivity).
  rewrite SD in H2. destruct (gather_any _ _ _ _ F3 H2) as [NO GO]. specialize (NO N1). rewrite F4 in H3.
  split; [eapply msg_new_NoDup; [|exact H3]; cbn; constructor; [easy|constructor]|].
  rewrite (msg_new_get _ _ _ NO H3), (GO _ _ G'). unfold skipped. rewrite shown_plain by reflexivity. destruct rt; [easy|reflexivity].
Qed.
Lemma logout_uri_of c u : u <> "" -> configured_logout_uri c u -> logout_uri c = Ok (Some (VStr u)).
Proof.
  intros Ne H. unfold configured_logout_uri in H. unfold logout_uri.
  destruct (dget "post_logout_redirect_uris" (register_args c)) as [v|].
  - destruct v as [| | |s|l|]; try contradiction; [subst; cbn [truthy]; now rewrite (eqb_neq _ _ Ne)|].
    destruct l as [|x l]; [contradiction|]. destruct x; try contradiction. subst. reflexivity.
  - destruct H as [r ->]. reflexivity.
Qed.
Lemma form_bearer_body E cls atr c kw req ha r : dget "access_token" req = None -> dget "access_token" kw = None -> dget "key" kw = None ->
  authenticate E "bearer_body" "refresh_token" cls atr c kw ha req <> Ok r.
Proof.
  intros H1 H2 H3. cbn [authenticate]. unfold authenticate. cbn. unfold bearer_body, find_token. rewrite H1, H2, H3. discriminate.
Qed.
Lemma refresh_sends W cl st scope c ep rt it : dget "pre_construct" (conf_of cl "refresh_token") = None ->
  (forall e, get_item (sdb c) cTokenResponse "refresh_token_response" st <> Ok e) ->
  get_item (sdb c) cTokenResponse "token_response" st = Ok it -> dget "refresh_token" it = Some (VStr rt) ->
  dget (verified "refresh_token") it = None -> rt <> "" ->
  dget "token_endpoint" (provider_info c) = Some (VStr ep) -> client_authn_method c <> Ok "bearer_body" ->
  only_sends (fun http => refresh_access_token (with_http W http) cl st scope) c (refresh_wire rt ep).
Proof.
  intros PC NI HI HR HV Ne EP NB http1 http2 HH. unfold refresh_access_token. fold (refresh_args scope).
  destruct (client_authn_method c) as [am|] eqn:AM; [|reflexivity].
  unfold do_request_named. change (refresh_svc (with_http W http1) cl) with (refresh_svc W cl). change (refresh_svc (with_http W http2) cl) with (refresh_svc W cl).
  destruct (has_service cl (s_name (refresh_svc W cl))); [|reflexivity].
  cbn [e_authn e_http e_jwt with_http]. unfold bind.
  assert (S : only_sends (fun http => do_request (e_authn W) http (e_jwt W) (refresh_svc W cl) "" (refresh_args scope) am [("state", VStr st)]) c (refresh_wire rt ep)).
  { apply do_request_sends. intros i c1 G.
    destruct (refresh_svc_fields W cl) as (F1 & F2 & F3 & F4 & F5 & _ & _ & _ & F6 & F7). cbv zeta in *.
    destruct (post_form _ _ _ _ _ _ _ _ F1 F2 F3 G) as (req0 & txt & G1 & G2 & G3 & G4 & _ & G5 & G6 & G7).
    destruct (refresh_construct _ _ _ _ _ _ _ _ _ PC NI HI HR HV Ne G1) as (-> & N & RT).
    destruct (post_form_headers _ _ _ _ _ _ _ _ F1 F2 F3 G) as (req0' & txt' & h & kw' & G1' & G3' & A & G8).
    rewrite G1 in G1'. injection G1' as <-. rewrite G3 in G3'. injection G3' as <-.
    assert (EU : i_url i = ep).
    { change (dget "endpoint" [("state", VStr st)]) with (@None val) in G7. cbv iota in G7.
      assert (GE : get_endpoint (refresh_svc W cl) c = dict_get "token_endpoint" (provider_info c)) by reflexivity.
      rewrite GE in G7. unfold dict_get in G7. rewrite EP in G7. congruence. }
    split; [exact EU|]. split; [exact G2|]. exists txt. split; [exact G3|].
    set (meth := if (if am =?s "" then s_authn (refresh_svc W cl) c else am) =?s "" then s_authn (refresh_svc W cl) c else (if am =?s "" then s_authn (refresh_svc W cl) c else am)) in *.
    assert (NM : meth <> "bearer_body").
    { unfold meth. destruct (am =?s "") eqn:EA.
      - assert (TA : token_authn_method "bearer_header" c <> "bearer_body").
        { apply String.eqb_eq in EA. subst am. unfold token_authn_method. unfold client_authn_method in AM.
          destruct (dget "token_endpoint_auth_method" (behaviour c)) as [v|]; [|discriminate].
          destruct v as [| | |s| |]; try discriminate. injection AM as ->. discriminate. }
        destruct (s_authn (refresh_svc W cl) c =?s ""); exact TA.
      - rewrite EA. congruence. }
    clearbody meth. unfold get_authn_header in A. rewrite F7 in A. destruct (meth =?s "") eqn:EM.
    { right. assert (AQ : i_request i = req0) by congruence. apply G5; [rewrite AQ; exact N| rewrite AQ; exact RT|exact Ne]. }
    unfold rbind in A.
    match type of A with context [authenticate ?a ?b ?x ?d ?e ?f ?g ?h ?k] => destruct (authenticate a b x d e f g h k) as [[ha r]|] eqn:AU end; [|discriminate].
    assert (AQ : i_request i = r) by congruence. assert (AH : h = match ha with Some x => x | None => [] end) by (destruct ha; congruence). clear A.
    destruct (authenticate_refresh _ _ _ _ _ _ _ _ _ _ _ AU RT) as [(_ & B1 & hs & -> & B2)|[B|B]]; [|contradiction|].
    - left. split; [|apply G6; now rewrite AQ]. rewrite G8, AH. rewrite dget_dset_neq by discriminate. exact B2.
    - right. apply G5; [auto|now rewrite AQ|exact Ne]. }
  specialize (S http1 http2 HH). cbv beta in S.
  exact (f_equal (fun x : res response * ctx => let (r, c') := x in match r with Ok a => (if is_error_response a then raise OidcServiceError else ret a) c' | Err e => (Err e, c') end) S).
Qed.
