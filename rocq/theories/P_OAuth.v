(** Lemmas about M_OAuth.v *)
From Verif Require Import Base BaseP Json JsonP Msg M_State S_State P_State M_Ctx M_Codec M_Authz M_ClientAuth
  M_Service M_Token M_Handler M_OAuth S_Service S_Token S_Handler S_Flow S_Trace S_OAuth P_Ctx P_Authz P_Codec P_ClientAuth P_Service P_Wire
  P_Token P_Handler P_Flow P_Token2 P_Trace P_Flow2 P_Handler2 P_Handler3 P_Handler4.

Lemma oauth_token_service_plain vrf now conf : token_service_of cTokenResponse "json" vrf now conf = oauth2_token_service vrf now conf.
Proof. reflexivity. Qed.

(** ** the authorization request *)
Lemma oauth_authz_fields W cl :
  s_pre (oauth_authz_svc W cl) = ([lift_pre (fun a _ => pre_construct_pick_redirect_uri a); set_state_parameter]
    ++ (if cl_pkce cl then [add_code_challenge (e_hash W) (unreserved (e_rand W))] else [])) /\
  s_post (oauth_authz_svc W cl) = [store_auth_request] /\ s_gather (oauth_authz_svc W cl) = authz_gather /\
  s_cls (oauth_authz_svc W cl) = cOAuth2AuthzRequest /\ s_conf (oauth_authz_svc W cl) = conf_of cl "authorization" /\
  s_http_method (oauth_authz_svc W cl) = "GET" /\ s_extra (oauth_authz_svc W cl) = [] /\ (forall c, s_authn (oauth_authz_svc W cl) c = "") /\
  s_endpoint (oauth_authz_svc W cl) = "" /\ s_endpoint_name (oauth_authz_svc W cl) = "authorization_endpoint".
Proof. repeat split. Qed.
Lemma post_no_state beh : no_state beh -> dget "state" (post_args (kwb beh) []) = None.
Proof.
  destruct beh as [b|]; [|reflexivity]. intros H. change (post_args (kwb (Some b)) []) with (dupdate [] b). rewrite dget_dupdate.
  assert (Y : dget "state" (rev b) = None); [|now rewrite Y].
  apply dget_None_In. intros C. apply H. unfold dkeys in *. rewrite map_rev in C. now apply in_rev in C.
Qed.
Lemma oauth_construct W cl args beh c req c' st :
  plain_conf (conf_of cl "authorization") -> NoDup (dkeys args) -> no_state beh ->
  dget "state" args = Some (VStr st) -> st <> "" -> (forall m v, e_hash W m v <> "") ->
  construct (oauth_authz_svc W cl) args (kwb beh) c = (Ok req, c') ->
  NoDup (dkeys req) /\ c' = set_db (sdb c') c /\
  (forall p v, ~ In p ["redirect_uri"; "code_challenge"; "code_challenge_method"] ->
     dget p args = Some v -> skipped v = false -> dget p req = shown cOAuth2AuthzRequest p v) /\
  (forall v, dget "redirect_uri" args = Some v -> skipped v = false -> dget "redirect_uri" req = Some v) /\
  (forall cc, get_item (sdb c') cc "auth_request" st = msg_new cc (msg_to_dict cOAuth2AuthzRequest req)) /\
  (forall i, get_iss (sdb c) st = Ok i -> get_iss (sdb c') st = Ok i) /\
  (forall q, q <> st -> dget q (sdb c') = dget q (sdb c)) /\
  (cl_pkce cl = true -> pkce_bound W c req (sdb c') st).
Proof.
  destruct (oauth_authz_fields W cl) as (AF1 & AF2 & AF3 & AF4 & AF5 & _).
  generalize dependent (oauth_authz_svc W cl). intros s AF1 AF2 AF3 AF4 AF5.
  intros [PC1 PC2] N NS Hst Hne Hhash H. apply construct_inv in H.
  destruct H as (a1 & post & c1 & out & req0 & E1 & E2 & E3 & E4).
  unfold do_pre_construct in E1. rewrite method_args_plain in E1 by (rewrite AF5; exact PC1).
  unfold do_post_construct in E4. rewrite method_args_plain in E4 by (rewrite AF5; exact PC2).
  assert (KS : dget "state" (kwb beh) = None) by (destruct beh; reflexivity).
  rewrite AF1 in E1. cbn [app run_pre] in E1.
  (* redirect uri *)
  apply bind_ok in E1. destruct E1 as ([b2 p2] & d2 & S2 & E1). unfold lift_pre in S2. apply bind_ok in S2.
  destruct S2 as (x & d2' & S2 & S2'). injection S2' as <- <- <-. cbn [fst snd] in E1.
  unfold pre_construct_pick_redirect_uri in S2.
  destruct (pick_redirect_uri c (Some args) None) as [ru|] eqn:Eru; [|discriminate].
  injection S2 as <- <-.
  (* state *)
  apply bind_ok in E1. destruct E1 as ([b3 p3] & d3 & S3 & E1). unfold set_state_parameter, get_state_parameter in S3.
  rewrite KS, dget_dset_neq, Hst in S3 by discriminate. cbn [rbind] in S3. injection S3 as <- <- <-. cbn [fst snd] in E1.
  set (b := dset "state" (VStr st) (dset "redirect_uri" ru args)) in *.
  assert (NB : NoDup (dkeys b)) by (unfold b; auto using NoDup_dset).
  assert (GB : forall p, p <> "redirect_uri" -> p <> "state" -> dget p b = dget p args).
  { intros p P1 P2. unfold b. rewrite !dget_dset_neq by congruence. reflexivity. }
  assert (GBs : dget "state" b = Some (VStr st)) by (unfold b; apply dget_dset_eq).
  assert (GBr : forall v, dget "redirect_uri" args = Some v -> dget "redirect_uri" b = Some v).
  { intros v Hv. unfold b. rewrite dget_dset_neq, dget_dset_eq by discriminate. f_equal.
    unfold pick_redirect_uri in Eru. rewrite Hv in Eru. congruence. }
  (* pkce *)
  assert (PK : c1 = set_db (sdb c1) c /\ (NoDup (dkeys b) -> NoDup (dkeys a1)) /\
     (forall p, ~ In p ["code_challenge"; "code_challenge_method"] -> dget p a1 = dget p b) /\
     (forall i, get_iss (sdb c) st = Ok i -> get_iss (sdb c1) st = Ok i) /\
     (forall q, q <> st -> dget q (sdb c1) = dget q (sdb c)) /\
     post = [] /\
     (cl_pkce cl = true -> (exists s, get_state (sdb c1) st = Ok s) /\ exists n m v, pkce_setting c n m /\
        v = unreserved (e_rand W) n /\ In m cc_methods /\ dget "code_challenge" a1 = Some (VStr (b64e (e_hash W m v))) /\
        dget "code_challenge_method" a1 = Some (VStr m) /\
        forall cc, get_item (sdb c1) cc "pkce" st = msg_new cc [("code_verifier", VStr v); ("code_challenge_method", VStr m)])).
  { destruct (cl_pkce cl).
    - cbn [run_pre] in E1. apply bind_ok in E1. destruct E1 as ([b4 p4] & d4 & S4 & E1). cbn [fst snd] in E1. injection E1 as <- <- <-.
      destruct (add_challenge_spec _ _ _ _ _ _ _ _ _ _ GBs S4) as (n & m & v & V1 & V2 & V3 & V4 & V5 & V6 & V7 & V8 & V9 & V10).
      subst p4 b4. split; [exact V2|]. split; [auto using NoDup_dset|]. split.
      { intros p Hp. cbn in Hp. rewrite !dget_dset_neq; [reflexivity| |]; intros <-; tauto. }
      split; [exact V9|]. split; [exact V10|]. split; [reflexivity|]. intros _. split; [exact V8|].
      exists n, m, v. split; [exact V3|]. split; [exact V4|]. split; [exact V5|].
      split; [rewrite dget_dset_neq by discriminate; apply dget_dset_eq|]. split; [apply dget_dset_eq|]. exact V7.
    - cbn [run_pre] in E1. injection E1 as <- <- <-. split; [now rewrite set_db_same|]. split; [auto|]. split; [auto|].
      split; [auto|]. split; [auto|]. split; [reflexivity|discriminate]. }
  clear E1. destruct PK as (K0 & K1 & K2 & K4 & K5 & K6 & K7). subst post.
  assert (NA : NoDup (dkeys a1)) by auto.
  (* gathering *)
  unfold state_default in E2. rewrite KS in E2. unfold gather_request_args in E2.
  destruct (gather_loop s c1 (c_par (s_cls s)) a1) as [o1|] eqn:E5; [|discriminate]. cbn [rbind] in E2.
  destruct (gather_loop_get _ _ _ _ _ E5) as [NO GO]. specialize (NO NA).
  assert (OUT : NoDup (dkeys out) /\ forall p v, dget p a1 = Some v -> dget p out = Some v).
  { rewrite AF3 in E2. unfold authz_gather in E2. destruct (dhas "redirect_uri" o1) eqn:Er.
    - injection E2 as <-. split; [assumption|]. intros p v Hp. now rewrite GO, Hp.
    - destruct (redirect_uris c1); [discriminate|]. injection E2 as <-. split; [now apply NoDup_dset|].
      intros p v Hp. rewrite dget_dset_neq; [now rewrite GO, Hp|]. intros <-. unfold dhas in Er. now rewrite GO, Hp in Er. }
  clear E2 E5 NO GO. destruct OUT as [NO GO].
  rewrite AF4 in E3.
  assert (NR : NoDup (dkeys req0)) by (eapply msg_new_NoDup; [|exact E3]; constructor).
  assert (GR : forall p v, dget p a1 = Some v -> skipped v = false -> dget p req0 = shown cOAuth2AuthzRequest p v).
  { intros p v Hp Hs. rewrite (msg_new_get _ _ _ NO E3), (GO _ _ Hp). now rewrite Hs. }
  assert (SKS : skipped (VStr st) = false) by (destruct st; [easy|reflexivity]).
  assert (ST : dget "state" req0 = Some (VStr st)).
  { rewrite (GR "state" (VStr st)); [reflexivity| |assumption]. rewrite K2 by (cbn; intuition discriminate). exact GBs. }
  (* post *)
  rewrite AF2 in E4. cbn [run_post] in E4. apply bind_ok in E4. destruct E4 as (r1 & e1 & S4 & E4).
  injection E4 as <- <-. unfold store_auth_request, get_state_parameter in S4.
  rewrite (post_no_state _ NS), ST in S4. cbn [rbind key_arg] in S4. apply bind_ok in S4. destruct S4 as (k & e2 & S5 & S4).
  injection S5 as <- <-. apply bind_ok in S4. destruct S4 as ([] & e3 & S5 & S4). injection S4 as <- <-.
  unfold on_db in S5. destruct (store_item (IMsg cOAuth2AuthzRequest req0) "auth_request" st (sdb c1)) as [q d] eqn:Es. injection S5 as -> <-.
  pose proof (store_item_effect _ _ _ _ _ _ _ Es) as F. destruct F as (F1 & F2 & F3 & F4). cbn [sdb set_db].
  split; [exact NR|]. split; [rewrite K0; reflexivity|]. split; [|split; [|split; [|split; [|split]]]].
  - intros p v Hp Hv Hs. cbn in Hp. apply GR; [|assumption]. rewrite K2 by (cbn; intuition congruence).
    destruct (String.eqb_spec p "state") as [->|Ns]; [congruence|]. rewrite GB; [assumption| |assumption]. intros ->. tauto.
  - intros v Hv Hs. rewrite (GR "redirect_uri" v); [reflexivity| |assumption]. rewrite K2 by (cbn; intuition discriminate). now apply GBr.
  - exact F1.
  - intros i Hi. apply F3; [discriminate|]. now apply K4.
  - intros p Hp. rewrite F4 by assumption. now apply K5.
  - intros Hp. destruct (K7 Hp) as (SS & n & m & v & A & B & C & D & F & G). exists n, m, v.
    split; [exact A|]. split; [exact B|]. split; [exact C|]. split; [|split].
    + rewrite (GR _ _ D); [reflexivity|]. pose proof (b64e_nonempty _ (Hhash m v)). destruct (b64e (e_hash W m v)); [easy|reflexivity].
    + rewrite (GR _ _ F); [reflexivity|]. cbn in C. intuition (subst; reflexivity).
    + intros cc. rewrite F2; [apply G|discriminate|exact SS].
Qed.
Lemma oauth_init_spec K W cl reqs beh c u st c' : key_family K -> K (e_state W) ->
  plain_conf (conf_of cl "authorization") -> no_state beh -> (forall m v, e_hash W m v <> "") ->
  oauth_init W cl reqs beh c = (Ok (u, st), c') ->
  st = e_state W /\ exists args req ep,
    authz_request_args W c reqs = Ok args /\
    dget "authorization_endpoint" (provider_info c) = Some (VStr ep) /\ u_base (urlsplit u) = u_base (urlsplit ep) /\
    NoDup (dkeys req) /\ dget "state" req = Some (VStr st) /\
    (forall cc, get_item (sdb c') cc "auth_request" st = msg_new cc (msg_to_dict cOAuth2AuthzRequest req)) /\
    get_state_by_nonce (sdb c') (e_nonce W) = Ok st /\
    (issuer c <> "" -> get_iss (sdb c') st = Ok (VStr (issuer c))) /\
    (forall p v, ~ In p ["state"; "redirect_uri"; "code_challenge"; "code_challenge_method"] ->
       dget p args = Some v -> skipped v = false -> dget p req = shown cOAuth2AuthzRequest p v) /\
    (forall v, dget "redirect_uri" args = Some v -> skipped v = false -> dget "redirect_uri" req = Some v) /\
    (forall k, K k -> k <> st -> dget k (sdb c') = dget k (sdb c)) /\
    (forall x v, In x kinds -> (x = "nonce" -> v <> e_nonce W) -> get_state_by_x (sdb c') v x = get_state_by_x (sdb c) v x) /\
    c' = set_db (sdb c') c /\
    (cl_pkce cl = true -> pkce_bound W c req (sdb c') st) /\
    (u_query (urlsplit ep) = "" ->
       (forall p v, dget p req = Some (VStr v) -> v <> "" -> form_has (u_query (urlsplit u)) p v) /\
       (forall p l ws, In p ["response_type"; "scope"] -> dget p req = Some (VList l) -> all_strs l = Some ws -> join " " ws <> "" ->
          form_has (u_query (urlsplit u)) p (join " " ws)) /\
       (forall p, dget p req = None -> form_lacks (u_query (urlsplit u)) p)).
Proof.
  intros (K1 & K2 & K3 & K4) Hk PC NS HH H. unfold oauth_init, init_authorization_with in H.
  apply bind_ok in H. destruct H as (args & c1 & E1 & H). injection E1 as E1 <-.
  apply bind_ok in H. destruct H as (iss & c1 & E2 & H). injection E2 as <- <-.
  apply bind_ok in H. destruct H as (s0 & c1 & E2 & H). unfold on_db in E2.
  destruct (create_state (e_state W) (issuer c) "" (sdb c)) as [q d] eqn:Ec. injection E2 as -> <-.
  destruct (create_state_effect _ _ _ _ _ _ Ec) as (C1 & C2 & C3). cbn in C1. subst s0.
  apply bind_ok in H. destruct H as ([] & c2 & E3 & H). unfold on_db in E3. cbn [sdb set_db] in E3.
  destruct (store_nonce2state (e_nonce W) (e_state W) d) as [q d2] eqn:En. injection E3 as -> <-.
  destruct (store_x_effect _ _ _ _ _ _ in_nonce En) as [D1 D2].
  apply bind_ok in H. destruct H as (i & c3 & E4 & H). injection H as <- <- <-.
  destruct (authz_args_spec _ _ _ _ E1) as (A1 & A2 & _).
  fold (kwb beh) in E4.
  destruct (oauth_authz_fields W cl) as (_ & _ & _ & AF4 & _ & AF6 & AF7 & AF8 & AF9 & AF10).
  destruct (get_url _ _ _ _ _ _ _ AF6 AF7 AF8 E4) as (ep & F1 & F2 & F3 & F4 & F5 & F6 & F7).
  assert (KE : dget "endpoint" (kwb beh) = None) by (destruct beh; reflexivity). rewrite KE in F5.
  assert (NA : NoDup (dkeys (dset "state" (VStr (e_state W)) args))) by now apply NoDup_dset.
  destruct (oauth_construct W cl _ beh _ _ _ (e_state W) PC NA NS (dget_dset_eq _ _ _) (K1 _ Hk) HH F1)
    as (G1 & G2 & G3 & G4 & G5 & G6 & G7 & G8). cbn [sdb set_db] in *.
  split; [reflexivity|]. exists args, (i_request i), ep. split; [exact E1|].
  split. { unfold get_endpoint in F5. rewrite AF9, AF10 in F5. cbn [String.eqb eqs] in F5.
    unfold dict_get in F5. rewrite G2 in F5. cbn [provider_info set_db] in F5.
    destruct (dget "authorization_endpoint" (provider_info c)); congruence. }
  split; [exact F6|]. split; [exact G1|].
  assert (ST : dget "state" (i_request i) = Some (VStr (e_state W))).
  { rewrite (G3 "state" (VStr (e_state W))); [reflexivity|cbn; intuition discriminate|apply dget_dset_eq|].
    pose proof (K1 _ Hk). destruct (e_state W); [easy|reflexivity]. }
  split; [exact ST|]. split; [exact G5|].
  assert (XS : forall x v, In x kinds -> idx x v <> e_state W) by (intros x v Hx; apply not_eq_sym; now apply K2).
  split. { apply by_x_bound; [apply in_nonce|now apply K1|]. rewrite G7 by (apply XS, in_nonce). exact D1. }
  split. { intros Hi. apply G6. unfold get_iss, get_state in *. rewrite D2; [|now apply K2; [|apply in_nonce]|now apply K3].
    destruct (dget (e_state W) d); [|discriminate]. rewrite C3. rewrite (eqb_neq _ _ Hi). reflexivity. }
  split. { intros p v Hp Hv Hs. apply G3; [cbn in *; tauto| |assumption]. rewrite dget_dset_neq; [assumption|]. intros <-. cbn in Hp. tauto. }
  split. { intros v Hv. apply G4. now rewrite dget_dset_neq by discriminate. }
  split. { intros k Hk' Hne. rewrite G7 by assumption. rewrite D2; [|now apply K2; [|apply in_nonce]|now apply K3]. now apply C2. }
  split. { intros x v Hx Hv. apply by_x_get; [assumption|]. rewrite G7 by now apply XS.
    rewrite D2; [apply C2; now apply XS| |now apply idx_ref]. intros C. apply idx_inj in C; [|assumption|apply in_nonce].
    destruct C as [-> ->]. now destruct (Hv eq_refl). }
  split. { rewrite G2. reflexivity. }
  split. { exact G8. }
  intros Hq. destruct (F7 Hq) as (L1 & L2 & L3). split; [now apply L1|]. split; [|exact L3].
  intros p l ws Hp Hl Hw Hn. apply (L2 G1 p l); rewrite ?AF4; auto. cbn in Hp. destruct Hp as [<-|[<-|[]]]; reflexivity.
Qed.

(** ** the authorization response *)
Lemma oauth2_update_effect now resp key c r c' : oauth2_authz_update now resp key c = (r, c') ->
  match r with
  | Err _ => c' = c
  | Ok m => add_expires_at now resp = Ok m /\ exists d',
       store_item (IMsg cOAuth2AuthzResponse m) "auth_response" key (sdb c) = (Ok tt, d') /\ c' = set_db d' c
  end.
Proof.
  unfold oauth2_authz_update. intros H. destruct (add_expires_at now resp) as [m|]; [|now inversion H].
  unfold bind, on_db, ret in H.
  destruct (store_item (IMsg cOAuth2AuthzResponse m) "auth_response" key (sdb c)) as [[[]|e] d'] eqn:E.
  - inversion H; subst. eauto.
  - inversion H; subst. apply store_item_effect in E. subst. apply set_db_same.
Qed.
Lemma oauth_finalize_auth_spec W cl iss response c r c' :
  oauth_finalize_auth W cl iss response c = (r, c') ->
  match r with
  | Err _ => c' = c
  | Ok m =>
      (is_error_message m = true /\ c' = c) \/
      (is_error_message m = false /\ exists s,
         dget "state" m = Some (VStr s) /\
         get_iss (sdb c) s = Ok (VStr iss) /\
         c' = set_db (sdb c') c /\
         (forall cc, get_item (sdb c') cc "auth_response" s = msg_new cc (msg_to_dict cOAuth2AuthzResponse m)) /\
         (forall cc t, t <> "auth_response" -> get_item (sdb c') cc t s = get_item (sdb c) cc t s) /\
         get_iss (sdb c') s = Ok (VStr iss) /\
         (forall k, k <> s -> dget k (sdb c') = dget k (sdb c)) /\
         exists m0 v, msg_new cOAuth2AuthzResponse response = Ok m0 /\ e_vrf W "authorization" c m0 = Ok v /\ add_expires_at (e_now W) v = Ok m)
  end.
Proof.
  unfold oauth_finalize_auth, finalize_auth_with.
  change (s_rcls (oauth_authz_svc W cl)) with cOAuth2AuthzResponse. change (s_vrf (oauth_authz_svc W cl)) with (e_vrf W "authorization").
  change (s_post_parse (oauth_authz_svc W cl)) with oauth2_authz_post_parse. change (s_update (oauth_authz_svc W cl)) with (oauth2_authz_update (e_now W)).
  destruct (msg_new cOAuth2AuthzResponse response) as [resp0|]; [|intros H; now inversion H].
  unfold bind at 1.
  destruct (parse_deserialised (e_vrf W "authorization") oauth2_authz_post_parse resp0 "" c) as [[resp|e] c1] eqn:E.
  2:{ apply parse_deserialised_pure in E; [subst|exact oauth2_post_parse_pure]. intros H; now inversion H. }
  assert (E' := E). apply parse_deserialised_pure in E; [subst c1|exact oauth2_post_parse_pure].
  destruct (is_error_message resp) eqn:Ee.
  { intros H; inversion H; subst. auto. }
  assert (V : e_vrf W "authorization" c resp0 = Ok resp).
  { assert (X : fst (parse_deserialised (e_vrf W "authorization") oauth2_authz_post_parse resp0 "" c) = Ok resp) by now rewrite E'.
    apply parse_deserialised_ok in X. destruct X as [[X1 X2]|(X1 & v & X2 & X3)]; [congruence|].
    unfold oauth2_authz_post_parse in X3. destruct (dhas "scope" v); cbn in X3; congruence. }
  destruct (dget "state" resp) as [vs|] eqn:Es; [|intros H; now inversion H].
  destruct vs as [| | |s| |]; try (intros H; now inversion H).
  destruct (get_iss (sdb c) s) as [i|ei] eqn:Ei.
  2:{ destruct ei; intros H; now inversion H. }
  destruct (val_eqb i (VStr iss)) eqn:Ev; [|intros H; now inversion H].
  apply val_eqb_eq in Ev. subst i. unfold bind at 1.
  destruct (oauth2_authz_update (e_now W) resp s c) as [[m|e] c1] eqn:E1; apply oauth2_update_effect in E1.
  2:{ intros H; inversion H; subst. reflexivity. }
  destruct E1 as (Hm & d1 & Hs1 & ->). unfold bind, on_db, ret. cbn [sdb set_db].
  pose proof (store_item_effect _ _ _ _ _ _ _ Hs1) as (A1 & A2 & A3 & A4).
  assert (S1 : exists st, get_state d1 s = Ok st).
  { assert (Hne : "auth_response" <> "iss") by discriminate. pose proof (A3 Hne _ Ei) as X. now apply get_iss_state in X. }
  destruct S1 as [st1 S1]. destruct (store_item_succeeds d1 s st1 cOAuth2AuthzResponse m "auth_response" S1) as [d2 Hs2].
  change (sdb (set_db d1 c)) with d1. rewrite Hs2. intros H. inversion H; subst; clear H. right.
  pose proof (store_item_effect _ _ _ _ _ _ _ Hs2) as (B1 & B2 & B3 & B4).
  assert (Hne : "auth_response" <> "iss") by discriminate.
  split. { unfold is_error_message, dhas in *. now rewrite (add_expires_keys _ _ _ "error" Hm) by discriminate. }
  exists s. cbn [sdb set_db].
  repeat split; auto.
  - now rewrite (add_expires_keys _ _ _ "state" Hm) by discriminate.
  - intros cc t Ht. rewrite B2; [|assumption|eauto]. apply A2; [assumption|]. now apply get_iss_state in Ei.
  - intros k Hk. rewrite B4, A4; auto.
  - exists resp0, resp. auto.
Qed.

(** ** the token request *)
Lemma is_oauth_token_svc p W cl : is_token_service (cl_pkce cl) (oauth_token_svc p W cl).
Proof. unfold oauth_token_svc. destruct (cl_pkce cl); repeat split. Qed.
Lemma oauth_token_fields p W cl : let s := oauth_token_svc p W cl in s_http_method s = "POST" /\ s_req_type s = "urlencoded" /\
  s_extra s = [] /\ s_endpoint s = "" /\ s_endpoint_name s = "token_endpoint" /\
  s_name s = "accesstoken" /\ s_post_parse s = pass /\ s_resp_type s = token_format p /\
  s_rcls s = token_class p /\ s_update s = store_token_of (token_class p) (e_now W) /\
  s_redirect s = Some TypeError /\ s_vrf s = e_vrf W "accesstoken" /\
  s_pre s = (if cl_pkce cl then [token_pre (c_par cTokenRequest); put_state_in_post_args] else [token_pre (c_par cTokenRequest)]) /\
  s_post s = (if cl_pkce cl then [add_code_verifier] else []).
Proof. unfold oauth_token_svc. destruct (cl_pkce cl); repeat split. Qed.
Lemma oauth_tokens_inv p W cl st c r c' : oauth_tokens p W cl st c = (r, c') ->
  (exists e, r = Err e /\ c' = c) \/
  exists ar rq code ru am, get_item (sdb c) cAuthzResponse "auth_response" st = Ok ar /\
    get_item (sdb c) cAuthzRequest "auth_request" st = Ok rq /\ dget "code" ar = Some code /\ dget "redirect_uri" rq = Some ru /\
    client_authn_method c = Ok am /\ has_service cl "accesstoken" = true /\
    exists r1, do_request (e_authn W) (e_http W) (e_jwt W) (oauth_token_svc p W cl) "" (tok_args c st code ru) am [("state", VStr st)] c = (r1, c') /\
      r = match r1 with Ok x => if is_error_response x then Err OidcServiceError else Ok x | Err e => Err e end.
Proof.
  intros H. unfold oauth_tokens, get_tokens_with in H.
  destruct (get_item (sdb c) cAuthzResponse "auth_response" st) as [ar|]; [|injection H as <- <-; left; eauto]. cbn [rbind] in H.
  destruct (get_item (sdb c) cAuthzRequest "auth_request" st) as [rq|]; [|injection H as <- <-; left; eauto]. cbn [rbind] in H.
  unfold dict_get in H. destruct (dget "code" ar) as [code|] eqn:Ec; [|injection H as <- <-; left; eauto]. cbn [rbind] in H.
  destruct (dget "redirect_uri" rq) as [ru|] eqn:Er; [|injection H as <- <-; left; eauto]. cbn [rbind] in H.
  destruct (client_authn_method c) as [am|]; [|injection H as <- <-; left; eauto]. cbn [rbind] in H.
  unfold bind, do_request_named in H. destruct (oauth_token_fields p W cl) as (_ & _ & _ & _ & _ & TN & _). rewrite TN in H.
  destruct (has_service cl "accesstoken"); [|unfold raise in H; injection H as <- <-; left; eauto].
  right. exists ar, rq, code, ru, am. repeat (split; [first [reflexivity|assumption]|]).
  fold (tok_args c st code ru) in H.
  destruct (do_request (e_authn W) (e_http W) (e_jwt W) (oauth_token_svc p W cl) "" (tok_args c st code ru) am [("state", VStr st)] c) as [r1 c1].
  exists r1. destruct r1 as [x|e]; [|injection H as <- <-; auto].
  unfold raise, ret in H. destruct (is_error_response x); injection H as <- <-; auto.
Qed.
Lemma oauth_token_params p W cl st c code ru am i c1 ep : st <> "" -> code <> "" -> ru <> "" ->
  dget "token_endpoint" (provider_info c) = Some (VStr ep) ->
  get_request_parameters (e_authn W) (oauth_token_svc p W cl) (tok_args c st (VStr code) (VStr ru)) "" "" am [("state", VStr st)] c = (Ok i, c1) ->
  c1 = c /\
  token_wire st code ru ep
    (fun txt => cl_pkce cl = true -> forall it v, get_item (sdb c) cMessage "pkce" st = Ok it ->
       dget "code_verifier" it = Some (VStr v) -> v <> "" -> form_has txt "code_verifier" v)
    (i_url i) (i_method i) (i_body i) (i_headers i).
Proof.
  intros Hs Hc Hr Hep H. destruct (oauth_token_fields p W cl) as (T1 & T2 & T3 & T4 & T5 & T6 & _).
  destruct (post_form _ _ _ _ _ _ _ _ T1 T2 T3 H) as (req0 & txt & P1 & P2 & P3 & P4 & P5 & P6 & _ & P8).
  destruct (token_construct _ _ _ _ _ _ _ (is_oauth_token_svc p W cl) (tok_args_NoDup c st (VStr code) (VStr ru)) P1) as (-> & N & G & PK).
  assert (SK : forall v, v <> "" -> skipped (VStr v) = false) by (intros [|]; easy).
  split; [reflexivity|]. split; [|split; [exact P2|]].
  { cbn [dget] in P8. unfold get_endpoint in P8. rewrite T4, T5 in P8. cbn [String.eqb eqs] in P8. unfold dict_get in P8.
    change (if "state" =?s "endpoint" then Some (VStr st) else None) with (@None val) in P8. cbv iota in P8.
    rewrite Hep in P8. congruence. }
  exists txt. split; [exact P3|].
  assert (F : forall p v, ~ In p authn_params -> p <> "code_verifier" -> dget p (tok_args c st (VStr code) (VStr ru)) = Some (VStr v) -> v <> "" -> form_has txt p v).
  { intros q v A B C D. apply (P6 (P4 N)); [|assumption]. rewrite P5 by assumption. apply G; auto. }
  assert (NI : forall p, mem_str p authn_params = false -> ~ In p authn_params) by (intros q A B; apply mem_str_In in B; congruence).
  split; [apply F; [now apply NI|discriminate|reflexivity|discriminate]|].
  split; [apply F; [now apply NI|discriminate|reflexivity|assumption]|].
  split; [apply F; [now apply NI|discriminate|reflexivity|assumption]|].
  split; [apply F; [now apply NI|discriminate|reflexivity|assumption]|].
  intros Hp it v Hi Hv Hne. destruct (PK Hp st eq_refl Hs) as (it' & v' & A & B & C). rewrite Hi in A. injection A as <-.
  rewrite Hv in B. injection B as <-. apply (P6 (P4 N)); [|assumption]. rewrite P5; [assumption|now apply NI].
Qed.
Lemma oauth_token_sends p W cl st c ar rq code ru ep : st <> "" -> code <> "" -> ru <> "" ->
  get_item (sdb c) cAuthzResponse "auth_response" st = Ok ar -> dget "code" ar = Some (VStr code) ->
  get_item (sdb c) cAuthzRequest "auth_request" st = Ok rq -> dget "redirect_uri" rq = Some (VStr ru) ->
  dget "token_endpoint" (provider_info c) = Some (VStr ep) ->
  only_sends (fun http => oauth_tokens p (with_http W http) cl st) c
    (token_wire st code ru ep (fun txt => cl_pkce cl = true -> forall it v, get_item (sdb c) cMessage "pkce" st = Ok it ->
       dget "code_verifier" it = Some (VStr v) -> v <> "" -> form_has txt "code_verifier" v)).
Proof.
  intros Hs Hc Hr A1 A2 A3 A4 Hep http1 http2 HP. unfold oauth_tokens, get_tokens_with. rewrite A1, A3. cbn [rbind]. unfold dict_get. rewrite A2, A4. cbn [rbind].
  destruct (client_authn_method c) as [am|]; [|reflexivity]. cbn [rbind]. unfold bind, do_request_named.
  change (oauth_token_svc p (with_http W http1) cl) with (oauth_token_svc p W cl). change (oauth_token_svc p (with_http W http2) cl) with (oauth_token_svc p W cl).
  destruct (has_service cl (s_name (oauth_token_svc p W cl))); [|reflexivity].
  cbn [e_authn e_http e_jwt with_http].
  fold (tok_args c st (VStr code) (VStr ru)).
  assert (X : do_request (e_authn W) http1 (e_jwt W) (oauth_token_svc p W cl) "" (tok_args c st (VStr code) (VStr ru)) am [("state", VStr st)] c =
              do_request (e_authn W) http2 (e_jwt W) (oauth_token_svc p W cl) "" (tok_args c st (VStr code) (VStr ru)) am [("state", VStr st)] c).
  { eapply (do_request_sends (e_authn W) (e_jwt W) (oauth_token_svc p W cl)); [|exact HP]. intros i c1 Hi. eapply oauth_token_params; eauto. }
  now rewrite X.
Qed.
