From Verif Require Import Base BaseP Json JsonP Msg M_State S_State P_State M_Ctx M_Codec M_Authz M_ClientAuth
  M_Service M_Token M_Handler S_Service S_Token S_Handler S_Flow S_Trace S_Route P_Ctx P_Authz P_Codec P_ClientAuth P_Service P_Wire P_Token
  P_Handler P_Flow P_Token2 P_Trace P_Flow2 P_Handler2 P_Route M_Provider S_Provider P_Provider M_Registration S_Registration P_Registration
  M_WebFinger M_Setup S_Setup.

(** ** [share] *)
Lemma reread_form cnf c : exists b v, reread cnf c = set_config v (set_behaviour b c).
Proof.
  unfold reread. destruct (dget "behaviour" cnf) as [v|]; [|exists (behaviour c), cnf; destruct c; reflexivity].
  destruct v as [| | | | |d]; try (exists (behaviour c), cnf; destruct c; reflexivity). now exists d, cnf.
Qed.
Lemma sbc_refl cl : same_but_config cl cl.
Proof. exists (behaviour (cl_ctx cl)), (config (cl_ctx cl)). destruct cl as [[] ? ? ?]. reflexivity. Qed.
Lemma sbc_trans a b c : same_but_config a b -> same_but_config b c -> same_but_config a c.
Proof.
  intros [b1 [v1 ->]] [b2 [v2 ->]]. exists b2, v2. destruct a as [[] ? ? ?]. reflexivity.
Qed.
Lemma sbc_facts cl cl' : same_but_config cl cl' ->
  sdb (cl_ctx cl') = sdb (cl_ctx cl) /\ issuer (cl_ctx cl') = issuer (cl_ctx cl) /\ client_id (cl_ctx cl') = client_id (cl_ctx cl) /\
  provider_info (cl_ctx cl') = provider_info (cl_ctx cl) /\
  cl_services cl' = cl_services cl /\ cl_conf cl' = cl_conf cl /\ cl_pkce cl' = cl_pkce cl.
Proof. intros [b [v ->]]. repeat split. Qed.
Lemma share_get cfgs from rps i :
  match dget i rps with
  | None => dget i (share cfgs from rps) = None
  | Some cl => exists cl', dget i (share cfgs from rps) = Some cl' /\ same_but_config cl cl'
  end.
Proof.
  induction rps as [|[j cl] rps IH]; [reflexivity|]. cbn [dget share map fst snd].
  assert (E : exists cl', (match dget j from with
                | Some key => match dget key cfgs with
                              | Some cnf => (j, set_ctx (reread cnf (cl_ctx cl)) cl)
                              | None => (j, cl)
                              end
                | None => (j, cl) end) = (j, cl') /\ same_but_config cl cl').
  { destruct (dget j from) as [key|]; [|exists cl; split; [reflexivity|apply sbc_refl]].
    destruct (dget key cfgs) as [cnf|]; [|exists cl; split; [reflexivity|apply sbc_refl]].
    eexists. split; [reflexivity|]. destruct (reread_form cnf (cl_ctx cl)) as [b [v ->]]. now exists b, v. }
  destruct E as [cl' [-> E]]. cbn [dget]. destruct (j =?s i); [eauto|exact IH].
Qed.
Lemma share_keys cfgs from rps : dkeys (share cfgs from rps) = dkeys rps.
Proof.
  unfold dkeys, share. rewrite map_map. apply map_ext. intros [j cl]. cbn [fst snd].
  destruct (dget j from) as [key|]; [|reflexivity]. now destruct (dget key cfgs).
Qed.
Lemma share_has cfgs from rps i : dhas i (share cfgs from rps) = dhas i rps.
Proof. unfold dhas. pose proof (share_get cfgs from rps i) as H. destruct (dget i rps); [destruct H as [? [-> _]]|rewrite H]; reflexivity. Qed.
Lemma kept_share cfgs from s rps : hs_rps s = rps -> forall i, kept i s (mkh (share cfgs from rps) from cfgs (hs_hash s)).
Proof.
  intros <- i cl H. pose proof (share_get cfgs from (hs_rps s) i) as G. rewrite H in G. exact G.
Qed.
Lemma kept_trans i a b c : kept i a b -> kept i b c -> kept i a c.
Proof.
  intros H1 H2 cl H. destruct (H1 _ H) as [c1 [E1 S1]]. destruct (H2 _ E1) as [c2 [E2 S2]]. exists c2.
  split; [exact E2|]. eapply sbc_trans; eauto.
Qed.

(** ** what discovery and registration leave alone *)
Definition keepsf {X} (f : ctx -> X) {A} (m : M A) : Prop := forall c, f (snd (m c)) = f c.
Section KEEPS.
  Context {X : Type} (f : ctx -> X).
  Lemma kf_self {A} (m : M A) : (forall c, snd (m c) = c) -> keepsf f m.
  Proof. intros H c. now rewrite H. Qed.
  Lemma kf_bind {A B} (m : M A) (g : A -> M B) : keepsf f m -> (forall a, keepsf f (g a)) -> keepsf f (bind m g).
  Proof.
    intros H1 H2 c. unfold bind. pose proof (H1 c) as E. destruct (m c) as [[a|e] c1]; cbn [snd] in *; [|exact E].
    now rewrite (H2 a c1).
  Qed.
  Hypothesis Hcb : forall v c, f (set_callback v c) = f c.
  Lemma kf_reg_construct sha seed vrf upd conf args kw : keepsf f (construct (registration_service sha seed vrf upd conf) args kw).
  Proof.
    unfold construct. apply kf_bind.
    - intros c. destruct (reg_pre sha seed vrf upd conf args kw c) as (wp & _ & ->). cbn [snd]. unfold reg_ctx, add_callbacks. apply Hcb.
    - intros [a1 post]. apply kf_bind; [apply kf_self; reflexivity|]. intros a3.
      apply kf_bind; [apply kf_self; reflexivity|]. intros req. apply kf_self. intros c. rewrite reg_post. reflexivity.
  Qed.
  Lemma kf_grp E s args m b au kw : s_extra s = [] -> keepsf f (construct s args kw) -> keepsf f (get_request_parameters E s args m b au kw).
  Proof.
    intros Y H. unfold get_request_parameters. apply kf_bind; [apply kf_self; reflexivity|]. intros a. apply kf_bind; [exact H|].
    intros req. apply kf_bind; [apply kf_self; reflexivity|]. intros iss. apply kf_bind.
    { unfold get_headers. apply kf_bind; [apply kf_self; reflexivity|]. intros mt. apply kf_bind; [apply kf_self; reflexivity|]. intros hr.
      apply kf_bind; [|intros; apply kf_self; reflexivity]. rewrite Y. apply kf_self; reflexivity. }
    intros [h r]. apply kf_bind. { destruct (dget "endpoint" kw); apply kf_self; reflexivity. }
    intros ep. destruct ep; try (apply kf_self; reflexivity). apply kf_bind; [apply kf_self; reflexivity|]. intros u.
    destruct (_ =?s "POST"); [|apply kf_self; reflexivity]. apply kf_bind; [apply kf_self; reflexivity|]. intros; apply kf_self; reflexivity.
  Qed.
  Hypothesis Hreg : forall v c, f (set_registration v c) = f c.
  Hypothesis Hcl : forall a b c, f (set_client a b c) = f c.
  Lemma kf_load W cl sha seed args : keepsf f (load_registration_response W cl sha seed args).
  Proof.
    intros c. unfold load_registration_response. destruct (client_id c =?s ""); [|reflexivity].
    set (s := registration_service sha seed (e_vrf W "registration") registration_update (conf_of cl "registration")).
    assert (K : keepsf f (do_request_named W cl s args "" [])).
    { unfold do_request_named. destruct (has_service cl (s_name s)); [|now apply kf_self].
      unfold do_request. apply kf_bind.
      - apply kf_grp; [reflexivity|]. apply kf_reg_construct.
      - intros i c2. destruct (service_request (e_http W) (e_jwt W) s (i_url i) (i_method i) (i_body i)
          (if "" =?s "" then s_resp_type s else "") (i_headers i)
          (Some match dget "state" [] with Some (VStr x) => x | _ => "" end) c2) as [r c3] eqn:E. cbn [snd].
        apply service_request_spec in E; [|intros ? ? ? ? ? Y; change (s_post_parse s) with pass in Y; unfold pass, ret in Y; congruence].
        destruct E as [[-> _]|(resp & m & Hh & Herr & Hacc & r1 & Hu & Hr)]; [reflexivity|].
        change (s_update s) with registration_update in Hu. unfold registration_update, adopt_registration in Hu.
        cbn [r_ctx r_expires_at r_access_token r_keys] in Hu. revert Hu.
        generalize (dsetdefault "token_endpoint_auth_method" (VStr "client_secret_basic") m). intros m'.
        destruct (str_of (dget "client_id" m') =?s ""), (str_of (dget "client_secret" m') =?s ""),
          (dget "registration_access_token" m'); cbn [r_ctx]; intros Hu; injection Hu as _ <-; unfold set_secret, set_id;
          rewrite ?Hcl, ?Hreg; reflexivity. }
    specialize (K c). destruct (do_request_named W cl s args "" [] c) as [[r|e] c1]; [exact K|]. now destruct e.
  Qed.
End KEEPS.

Lemma discovery_ctx W p r p' : dynamic_discovery W p = (r, p') ->
  sdb (p_ctx p') = sdb (p_ctx p) /\ client_id (p_ctx p') = client_id (p_ctx p) /\ config (p_ctx p') = config (p_ctx p) /\
  allow (p_ctx p') = allow (p_ctx p).
Proof.
  unfold dynamic_discovery.
  set (c := match dget "srv_discovery_url" (config (p_ctx p)) with Some (VStr u) => set_issuer u (p_ctx p) | _ => p_ctx p end).
  assert (Hc : sdb c = sdb (p_ctx p) /\ client_id c = client_id (p_ctx p) /\ config c = config (p_ctx p) /\ allow c = allow (p_ctx p)).
  { unfold c. destruct (dget "srv_discovery_url" (config (p_ctx p))) as [v|]; [destruct v|]; repeat split. }
  clearbody c. destruct Hc as (H1 & H2 & H3 & H4). rewrite <- H1, <- H2, <- H3, <- H4. clear H1 H2 H3 H4.
  destruct (existsb (fun s => sep_name s =?s "provider_info") (p_eps p)); [|intros H; injection H as _ <-; repeat split].
  destruct (get_response (e_http W) (e_jwt W) (provider_info_service (e_vrf W "provider_info") []) (discovery_url c) "GET" None "json" [] "" c)
    as [rr c1] eqn:E.
  assert (RO : reads_only (s_post_parse (provider_info_service (e_vrf W "provider_info") []))).
  { intros ? ? ? ? ? Y. unfold provider_info_service in Y. cbn [s_post_parse] in Y. unfold ret in Y. now injection Y as _ ->. }
  destruct (get_response_spec _ _ _ _ _ _ _ _ _ _ _ _ RO E) as [-> _]. clear RO.
  assert (U : forall m q q', oidc_update_provider_info m q = (r, q') ->
     sdb (p_ctx q') = sdb (p_ctx q) /\ client_id (p_ctx q') = client_id (p_ctx q) /\ config (p_ctx q') = config (p_ctx q) /\ allow (p_ctx q') = allow (p_ctx q)).
  { intros m q q'. unfold oidc_update_provider_info, update_provider_info.
    destruct (match dget "issuer" m with Some i => verify_issuer i (p_ctx q) | None => Ok (issuer (p_ctx q)) end) as [i|e];
      [|intros H; injection H as _ <-; repeat split].
    cbn [p_ctx]. destruct (match_preferences m (set_provider_info m (set_issuer i (p_ctx q)))) as [r2 c2] eqn:Em.
    pose proof (match_preferences_beh _ _ _ _ Em) as B. intros H. injection H as _ <-. cbn [p_ctx]. rewrite B. repeat split. }
  destruct rr as [x|e]; [|intros H; injection H as _ <-; repeat split].
  destruct x as [m|t|h].
  - destruct (dhas "error" m); [intros H; injection H as _ <-; repeat split|]. intros H. apply U in H. exact H.
  - intros H. injection H as _ <-. repeat split.
  - intros H. apply U in H. exact H.
Qed.
Lemma provider_info_ctx W p r p' : do_provider_info W p = (r, p') ->
  sdb (p_ctx p') = sdb (p_ctx p) /\ client_id (p_ctx p') = client_id (p_ctx p) /\ config (p_ctx p') = config (p_ctx p) /\
  allow (p_ctx p') = allow (p_ctx p).
Proof.
  unfold do_provider_info. destruct (provider_info (p_ctx p)) as [|kv pi].
  - destruct (dynamic_discovery W p) as [r1 p1] eqn:E. destruct (discovery_ctx _ _ _ _ E) as (H1 & H2 & H3 & H4).
    destruct r1; intros H; injection H as _ <-; auto.
  - destruct (load_configured_keys (issuer (p_ctx p)) (kv :: pi) (p_keys p)) as [r1 j]. intros H.
    assert (Hp : p' = mkp (p_ctx p) (set_all (kv :: pi) (p_eps p)) j) by congruence. rewrite Hp. repeat split.
Qed.

(** ** one setup *)
Lemma setup_new_outcome W H iss beh t s r s' : setup_new W H iss beh t s = (r, s') ->
  match r with
  | Err _ => dkeys (hs_rps s') = dkeys (hs_rps s) /\ forall j, kept j s s'
  | Ok i =>
      (forall j, j <> i -> kept j s s' /\ (dget j (hs_rps s) = None -> dget j (hs_rps s') = None)) /\
      exists c2 cl', dget i (hs_rps s') = Some cl' /\ same_but_config (set_ctx c2 (tm_client t)) cl' /\
        sdb c2 = sdb (cl_ctx (tm_client t)) /\
        exists p, do_provider_info W (mkp (cl_ctx (tm_client t)) (tm_eps t) []) = (Ok (VStr i), p) /\ issuer c2 = issuer (p_ctx p)
  end.
Proof.
  unfold setup_new. destruct (do_provider_info W (mkp (cl_ctx (tm_client t)) (tm_eps t) [])) as [[v|e] p] eqn:Ep.
  2:{ intros E. injection E as <- <-. cbn [hs_rps]. split; [apply share_keys|]. intros j. now apply kept_share. }
  destruct (provider_info_ctx _ _ _ _ Ep) as (D1 & _). cbn [p_ctx] in D1.
  pose proof (kf_load sdb ltac:(reflexivity) ltac:(reflexivity) ltac:(reflexivity) W (tm_client t) (hc_sha H) (hc_seed H)
    (filter (fun kv => dhas (fst kv) registration_params) beh) (p_ctx p)) as K1.
  pose proof (kf_load issuer ltac:(reflexivity) ltac:(reflexivity) ltac:(reflexivity) W (tm_client t) (hc_sha H) (hc_seed H)
    (filter (fun kv => dhas (fst kv) registration_params) beh) (p_ctx p)) as K2.
  destruct (load_registration_response W (tm_client t) (hc_sha H) (hc_seed H)
              (filter (fun kv => dhas (fst kv) registration_params) beh) (p_ctx p)) as [[u|e] c2] eqn:Er; cbn [snd] in K1, K2.
  2:{ intros E. injection E as <- <-. cbn [hs_rps]. split; [apply share_keys|].
      intros j cl Hj. pose proof (share_get (write_back (tm_key t) (behaviour c2) (hs_cfgs s)) (hs_from s) (hs_rps s) j) as G.
      rewrite Hj in G. exact G. }
  assert (Hno : forall x, setup_new W H iss beh t s = x -> True) by auto.
  destruct v as [| | |i| |];
    try (intros E; injection E as <- <-; cbn [hs_rps]; split; [apply share_keys|]; intros j cl Hj;
         pose proof (share_get (write_back (tm_key t) (behaviour c2) (hs_cfgs s)) (hs_from s) (hs_rps s) j) as G; rewrite Hj in G; exact G).
  intros E. injection E as <- <-. cbn [hs_rps].
  set (cfgs := write_back (tm_key t) (behaviour c2) (hs_cfgs s)). set (from := dset i (tm_key t) (hs_from s)).
  split.
  - intros j Hj. pose proof (share_get cfgs from (dset i (set_ctx c2 (tm_client t)) (hs_rps s)) j) as G.
    rewrite dget_dset_neq in G by congruence. split.
    + intros cl Hcl. rewrite Hcl in G. exact G.
    + intros Hn. rewrite Hn in G. exact G.
  - pose proof (share_get cfgs from (dset i (set_ctx c2 (tm_client t)) (hs_rps s)) i) as G. rewrite dget_dset_eq in G.
    destruct G as [cl' [G1 G2]]. exists c2, cl'. split; [exact G1|]. split; [exact G2|]. split; [congruence|].
    exists p. split; [reflexivity|exact K2].
Qed.

(** ** one call of client_setup *)
Definition all_kept (s s' : hstate) : Prop := dkeys (hs_rps s') = dkeys (hs_rps s) /\ forall j, kept j s s'.
Lemma kept_refl i s : kept i s s.
Proof. intros cl H. exists cl. split; [exact H|apply sbc_refl]. Qed.
Lemma all_kept_refl s : all_kept s s.
Proof. split; [reflexivity|]. intros; apply kept_refl. Qed.
Lemma all_kept_trans a b c : all_kept a b -> all_kept b c -> all_kept a c.
Proof. intros [A1 A2] [B1 B2]. split; [congruence|]. intros j. eapply kept_trans; eauto. Qed.
Lemma set_cfgs_kept cfgs s : all_kept s (set_cfgs cfgs s).
Proof. split; [apply share_keys|]. intros j cl Hj. unfold set_cfgs. cbn [hs_rps]. pose proof (share_get cfgs (hs_from s) (hs_rps s) j) as G. rewrite Hj in G. exact G. Qed.
Lemma dget_keys {A} k (d : dict A) : dget k d = None <-> ~ In k (dkeys d).
Proof.
  induction d as [|[j v] d IH]; cbn [dget dkeys map fst In]; [tauto|]. destruct (String.eqb_spec j k) as [->|N].
  - split; [discriminate|]. intros X. exfalso. apply X. now left.
  - rewrite IH. unfold dkeys. tauto.
Qed.
Lemma all_kept_none j s s' : all_kept s s' -> dget j (hs_rps s') = None <-> dget j (hs_rps s) = None.
Proof. intros [A _]. rewrite !dget_keys, A. tauto. Qed.
Lemma init_client_plain H iss cfgs t cfgs' : init_client H iss cfgs = (Ok t, cfgs') ->
  sdb (cl_ctx (tm_client t)) = [] /\ (makes_plain H -> plain_client (tm_client t)).
Proof.
  unfold init_client. destruct (use_config iss cfgs) as [[[key cnf]|e] cf]; [|discriminate].
  destruct (hc_make H cnf) as [m|e] eqn:E; [|discriminate]. cbn [rbind]. intros X. apply pair_inv in X as [X _]. apply ok_inv in X. subst t. cbn [tm_client cl_ctx]. split; [reflexivity|].
  intros P. exact (P _ _ _ E).
Qed.
Lemma webfinger_keeps W H user cl c r c' : do_webfinger W H user cl c = (r, c') -> sdb c' = sdb c.
Proof.
  unfold do_webfinger. destruct (has_service cl "webfinger"); [|intros E; now injection E as _ <-].
  destruct (webfinger_request (hc_nok H) [] [("resource", VStr user)] (config c)) as [u|e]; [|intros E; now injection E as _ <-].
  intros E. apply service_request_spec in E.
  2:{ intros ? ? ? ? ? Y. unfold webfinger_service in Y. cbn [s_post_parse] in Y. unfold ret in Y. now injection Y as _ ->. }
  destruct E as [[-> _]|(resp & m & _ & _ & _ & r0 & Hu & _)]; [reflexivity|].
  unfold webfinger_service in Hu. cbn [s_update] in Hu. unfold bind in Hu.
  assert (K : forall x, sdb (snd (update_webfinger "" (conf_of cl "webfinger") m x)) = sdb x).
  { intros x. unfold update_webfinger. repeat match goal with |- context [match ?e with _ => _ end] => destruct e; try reflexivity end. }
  specialize (K c). destruct (update_webfinger "" (conf_of cl "webfinger") m c) as [[a|e] c1]; unfold ret in Hu; injection Hu as _ <-; exact K.
Qed.

Definition new_at (i : string) (s s' : hstate) (P : client -> Prop) : Prop :=
  (forall j, j <> i -> kept j s s' /\ (dget j (hs_rps s) = None -> dget j (hs_rps s') = None)) /\
  exists cl, dget i (hs_rps s') = Some cl /\ P cl.
Lemma sbc_plain cl cl' : same_but_config cl cl' -> plain_client cl -> plain_client cl'.
Proof. intros [b [v ->]] H. exact H. Qed.
Lemma setup_new_at W H iss beh t s i s' : setup_new W H iss beh t s = (Ok i, s') -> sdb (cl_ctx (tm_client t)) = [] ->
  new_at i s s' (fun cl => sdb (cl_ctx cl) = [] /\ (plain_client (tm_client t) -> plain_client cl)).
Proof.
  intros E E0. apply setup_new_outcome in E. cbn beta iota in E. destruct E as (A & c2 & cl' & B1 & B2 & B3 & _).
  split; [exact A|]. exists cl'. split; [exact B1|]. destruct (sbc_facts _ _ B2) as (S1 & _). split.
  - rewrite S1. cbn [cl_ctx set_ctx]. congruence.
  - intros P. eapply sbc_plain; [exact B2|]. exact P.
Qed.
Lemma setup_new_err W H iss beh t s e s' : setup_new W H iss beh t s = (Err e, s') -> all_kept s s'.
Proof. intros E. exact (setup_new_outcome _ _ _ _ _ _ _ _ E). Qed.
Lemma new_at_after i a b c P : all_kept a b -> new_at i b c P -> new_at i a c P.
Proof.
  intros K [A B]. split; [|exact B]. intros j Hj. destruct (A j Hj) as [A1 A2]. split.
  - eapply kept_trans; [apply K|exact A1].
  - intros N. apply A2. now rewrite (all_kept_none j _ _ K).
Qed.
Lemma client_setup_outcome W H iss user beh s r s' : client_setup W H iss user beh s = (r, s') ->
  match r with
  | Err _ => all_kept s s'
  | Ok i => (dhas iss (hs_rps s) = true /\ i = iss /\ all_kept s s' /\ (iss <> "" -> s' = s)) \/
            (dhas iss (hs_rps s) = false /\ new_at i s s' (fun cl => sdb (cl_ctx cl) = [] /\ (makes_plain H -> plain_client cl)))
  end.
Proof.
  unfold client_setup. destruct (String.eqb_spec iss "") as [E|E].
  - destruct (user =?s ""); [intros X; injection X as <- <-; apply all_kept_refl|].
    destruct (init_client H "" (hs_cfgs s)) as [[t|e] cfgs] eqn:Ei; [|intros X; injection X as <- <-; apply set_cfgs_kept].
    destruct (init_client_plain _ _ _ _ _ Ei) as [P1 P2].
    destruct (do_webfinger W H user (tm_client t) (cl_ctx (tm_client t))) as [[w|e] c] eqn:Ew;
      [|intros X; injection X as <- <-; apply set_cfgs_kept].
    apply webfinger_keeps in Ew.
    assert (HS : dhas iss (hs_rps (set_cfgs cfgs s)) = dhas iss (hs_rps s)) by apply share_has.
    rewrite HS. destruct (dhas iss (hs_rps s)) eqn:D.
    + intros X. injection X as <- <-. left. split; [reflexivity|]. split; [reflexivity|]. split; [apply set_cfgs_kept|contradiction].
    + intros X. destruct r as [i|e].
      * right. split; [reflexivity|]. eapply new_at_after; [apply set_cfgs_kept|].
        apply setup_new_at in X; cbn [tm_client cl_ctx set_ctx] in *; [|congruence].
        destruct X as [X1 [cl [X2 [X3 X4]]]]. split; [exact X1|]. exists cl. split; [exact X2|]. split; [exact X3|].
        intros M. apply X4. exact (P2 M).
      * eapply all_kept_trans; [apply set_cfgs_kept|eapply setup_new_err; exact X].
  - destruct (dhas iss (hs_rps s)) eqn:D.
    + intros X. injection X as <- <-. left. split; [reflexivity|]. split; [reflexivity|]. split; [apply all_kept_refl|reflexivity].
    + destruct (init_client H iss (hs_cfgs s)) as [[t|e] cfgs] eqn:Ei; [|intros X; injection X as <- <-; apply set_cfgs_kept].
      destruct (init_client_plain _ _ _ _ _ Ei) as [P1 P2]. intros X. destruct r as [i|e].
      * right. split; [reflexivity|]. eapply new_at_after; [apply set_cfgs_kept|].
        apply setup_new_at in X; [|exact P1]. destruct X as [X1 [cl [X2 [X3 X4]]]]. split; [exact X1|]. exists cl.
        split; [exact X2|]. split; [exact X3|]. intros M. apply X4. exact (P2 M).
      * eapply all_kept_trans; [apply set_cfgs_kept|eapply setup_new_err; exact X].
Qed.

(** ** the invariant of histories *)
Definition made_for (i : string) (o : op) : Prop := match o with Create _ iss _ => iss = i | _ => True end.
Definition sound_client (i : string) (cl : client) : Prop :=
  plain_client cl /\ issuer (cl_ctx cl) = i /\ i <> "" /\
  exists ops, Forall (fun o => op_ok rnd32 o /\ made_for i o) ops /\ sdb (cl_ctx cl) = snd (crun [] ops).
Definition sound (h : handler) : Prop := NoDup (dkeys h) /\ forall i cl, dget i h = Some cl -> sound_client i cl.

Lemma call_op_made cl c0 o x : call_op cl c0 o x -> made_for (issuer c0) x.
Proof.
  destruct x as [rnd j key| | |]; try exact (fun _ => I). cbn [made_for]. destruct o; cbn [call_op]; intros X;
  unfold init_op, final_op, final_bind, refresh_op, front_op, authz_op, token_op, userinfo_op, logout_op in X; [tauto|..];
  exfalso; no_op.
Qed.
Lemma sound_closed i cl : sound_client i cl -> closed rnd32 (sdb (cl_ctx cl)).
Proof.
  intros (_ & _ & _ & ops & F & ->). apply closed_run; [apply rnd32_family|apply closed_nil|].
  eapply Forall_impl; [|exact F]. cbn; tauto.
Qed.
Lemma sound_call i cl o : sound_client i cl -> call_ok o -> sound_client i (set_ctx (run_call cl o (cl_ctx cl)) cl).
Proof.
  intros S Ho. pose proof (sound_closed _ _ S) as C. destruct S as (P1 & P2 & P3 & ops & F & E).
  destruct (call_writes cl o (cl_ctx cl) P1 Ho C) as (A1 & ops1 & A2 & A3). split; [exact P1|].
  cbn [cl_ctx set_ctx]. split; [rewrite A1; exact P2|]. split; [exact P3|]. exists (ops ++ ops1). split.
  - apply Forall_app. split; [exact F|]. eapply Forall_impl; [|exact A2]. cbn. intros x [X1 X2]. split; [exact X1|].
    rewrite <- P2. eapply call_op_made. exact X2.
  - now rewrite crun_app, <- E, <- A3.
Qed.
Lemma latest_iss_made i h k v : Forall (fun o => op_ok rnd32 o /\ made_for i o) h -> latest_iss h k = Some v -> v = i.
Proof.
  induction 1 as [|o h [_ H1] _ IH]; [discriminate|]. destruct o as [rnd j key|? ? ? ?|? ? ?|k']; cbn [latest_iss]; auto.
  - destruct (created_key rnd key =?s k); [|exact IH]. destruct (j =?s ""); [discriminate|]. intros [= <-]. exact H1.
  - destruct (k' =?s k); [discriminate|exact IH].
Qed.
Lemma sound_iss i cl k : sound_client i cl -> rnd32 k ->
  get_iss (sdb (cl_ctx cl)) k = Ok (VStr i) \/ exists e, get_iss (sdb (cl_ctx cl)) k = Err (KeyError e).
Proof.
  intros (_ & _ & _ & ops & F & E) Hk. rewrite E.
  assert (F' : Forall (op_ok rnd32) ops) by (eapply Forall_impl; [|exact F]; cbn; tauto).
  destruct (store_observations rnd32 ops rnd32_family F') as [_ S]. specialize (S k Hk).
  destruct (latest_iss (rev ops) k) as [v|] eqn:L; [|auto]. left. apply latest_iss_made with (i := i) in L; [subst v; exact S|].
  apply Forall_rev. exact F.
Qed.
Lemma sound_route h i k : sound h -> rnd32 k -> knows h i k -> (forall j, j <> i -> ~ knows h j k) ->
  state2issuer h k = Ok (Some (VStr i)) /\ client_of_session h k = Ok i.
Proof.
  intros [N F] HK (cl & v & D & G) U.
  assert (ALL : forall j cl', In (j, cl') h -> j = i \/ exists e, get_iss (sdb (cl_ctx cl')) k = Err (KeyError e)).
  { intros j cl' I. apply In_dget_NoDup in I; [|exact N]. destruct (string_dec j i) as [|NJ]; [auto|]. right.
    destruct (sound_iss j cl' k (F _ _ I) HK) as [X|X]; [|exact X]. exfalso. apply (U j NJ). now exists cl', (VStr j). }
  assert (NE : i <> "") by now destruct (F _ _ D) as (_ & _ & ? & _).
  assert (V : get_iss (sdb (cl_ctx cl)) k = Ok (VStr i)).
  { destruct (sound_iss i cl k (F _ _ D) HK) as [A|[e A]]; [exact A|congruence]. }
  assert (S : state2issuer h k = Ok (Some (VStr i))).
  { clear F U. revert ALL D N. induction h as [|[j c] h IH]; intros ALL D N; [discriminate|]. cbn [state2issuer].
    cbn [dget] in D. destruct (String.eqb_spec j i) as [->|NJ].
    - injection D as ->. rewrite V. cbn [truthy]. rewrite (eqb_neq _ _ NE). reflexivity.
    - destruct (ALL j c (or_introl eq_refl)) as [->|[e ->]]; [contradiction|]. inversion N; subst. apply IH; auto. intros j' c' I. apply ALL. now right. }
  split; [exact S|]. unfold client_of_session. rewrite S. cbn [rbind]. unfold dhas. now rewrite D.
Qed.
Lemma sound_sbc i cl cl' : same_but_config cl cl' -> sound_client i cl -> sound_client i cl'.
Proof.
  intros S (A & B & C & D). destruct (sbc_facts _ _ S) as (S1 & S2 & _). split; [eapply sbc_plain; eauto|].
  rewrite S1, S2. auto.
Qed.

(** keys stay distinct *)
Lemma setup_new_nodup W H iss beh t s r s' : setup_new W H iss beh t s = (r, s') -> NoDup (dkeys (hs_rps s)) -> NoDup (dkeys (hs_rps s')).
Proof.
  unfold setup_new. destruct (do_provider_info W (mkp (cl_ctx (tm_client t)) (tm_eps t) [])) as [[v|e] p].
  2:{ intros E N. injection E as <- <-. cbn [hs_rps]. now rewrite share_keys. }
  destruct (load_registration_response W (tm_client t) (hc_sha H) (hc_seed H)
              (filter (fun kv => dhas (fst kv) registration_params) beh) (p_ctx p)) as [[u|e] c2].
  2:{ intros E N. injection E as <- <-. cbn [hs_rps]. now rewrite share_keys. }
  destruct v as [| | |i| |]; intros E N; injection E as <- <-; cbn [hs_rps]; rewrite share_keys; try exact N.
  now apply NoDup_dset.
Qed.
Lemma client_setup_nodup W H iss user beh s r s' : client_setup W H iss user beh s = (r, s') -> NoDup (dkeys (hs_rps s)) -> NoDup (dkeys (hs_rps s')).
Proof.
  intros E N. assert (C : forall cfgs, NoDup (dkeys (hs_rps (set_cfgs cfgs s)))) by (intros; unfold set_cfgs; cbn [hs_rps]; now rewrite share_keys).
  revert E. unfold client_setup. destruct (iss =?s "").
  - destruct (user =?s ""); [intros X; now injection X as <- <-|].
    destruct (init_client H "" (hs_cfgs s)) as [[t|e] cfgs]; [|intros X; injection X as <- <-; apply C].
    destruct (do_webfinger W H user (tm_client t) (cl_ctx (tm_client t))) as [[w|e] c]; [|intros X; injection X as <- <-; apply C].
    destruct (dhas iss (hs_rps (set_cfgs cfgs s))); [intros X; injection X as <- <-; apply C|]. intros X. eapply setup_new_nodup; [exact X|apply C].
  - destruct (dhas iss (hs_rps s)); [intros X; now injection X as <- <-|].
    destruct (init_client H iss (hs_cfgs s)) as [[t|e] cfgs]; [|intros X; injection X as <- <-; apply C].
    intros X. eapply setup_new_nodup; [exact X|apply C].
Qed.

(** ** steps *)
(** what a step must not do to the sessions: those known stay known, others stay unknown *)
Definition same_sessions (k : string) (h h' : handler) : Prop := forall i, knows h i k <-> knows h' i k.
Lemma same_sessions_trans k a b c : same_sessions k a b -> same_sessions k b c -> same_sessions k a c.
Proof. intros A B i. rewrite (A i). apply B. Qed.
Lemma all_kept_sessions k s s' : all_kept s s' -> same_sessions k (hs_rps s) (hs_rps s').
Proof.
  intros K i. destruct K as [K1 K2]. split.
  - intros (cl & v & D & G). destruct (K2 i _ D) as (cl' & D' & S). destruct (sbc_facts _ _ S) as (S1 & _). exists cl', v. now rewrite S1.
  - intros (cl' & v & D & G). destruct (dget i (hs_rps s)) as [cl|] eqn:E.
    + destruct (K2 i _ E) as (cl2 & D' & S). destruct (sbc_facts _ _ S) as (S1 & _). exists cl, v. split; [exact E|].
      rewrite <- S1. congruence.
    + exfalso. apply (all_kept_none i s s' (conj K1 K2)) in E. congruence.
Qed.
Lemma setup_step W H iss user beh s : makes_plain H -> harmless_setup W H iss user beh s -> sound (hs_rps s) ->
  sound (hs_rps (snd (client_setup W H iss user beh s))) /\
  forall k, rnd32 k -> same_sessions k (hs_rps s) (hs_rps (snd (client_setup W H iss user beh s))).
Proof.
  intros MP HH [N F]. unfold harmless_setup in HH. destruct (client_setup W H iss user beh s) as [r s'] eqn:E. cbn [snd].
  pose proof (client_setup_nodup _ _ _ _ _ _ _ _ E N) as N'.
  assert (AK : all_kept s s' -> sound (hs_rps s') /\ forall k, rnd32 k -> same_sessions k (hs_rps s) (hs_rps s')).
  { intros K. split; [|intros; now apply all_kept_sessions]. split; [exact N'|]. intros i cl' D.
    destruct (dget i (hs_rps s)) as [cl|] eqn:E0.
    - destruct (proj2 K i _ E0) as (cl2 & D' & S). assert (cl2 = cl') by congruence. subst cl2. eapply sound_sbc; eauto.
    - exfalso. apply (all_kept_none i s s' K) in E0. congruence. }
  apply client_setup_outcome in E. destruct r as [i|e]; [|now apply AK].
  destruct E as [(E1 & E2 & E3 & _)|(E1 & E2 & cl & D & S0 & S1)]; [now apply AK|].
  destruct HH as [HH|(HH1 & HH2 & HH3)].
  { exfalso. unfold dhas in E1. destruct (dget iss (hs_rps s)); [discriminate|contradiction]. }
  assert (SC : sound_client i cl).
  { split; [auto|]. split; [now apply HH3|]. split; [exact HH2|]. exists []. split; [constructor|exact S0]. }
  split.
  - split; [exact N'|]. intros j cl' D'. destruct (string_dec j i) as [->|NJ]; [assert (cl' = cl) by congruence; now subst cl'|].
    destruct (E2 j NJ) as [K1 K2]. destruct (dget j (hs_rps s)) as [cl0|] eqn:E0; [|rewrite K2 in D' by reflexivity; discriminate].
    destruct (K1 _ E0) as (cl2 & D2 & S). assert (cl2 = cl') by congruence. subst cl2. eapply sound_sbc; eauto.
  - intros k Hk j. destruct (string_dec j i) as [->|NJ].
    + split; [intros (x & v & Dx & _); congruence|]. intros (x & v & Dx & Gx). exfalso. assert (x = cl) by congruence. subst x.
      rewrite S0 in Gx. discriminate.
    + destruct (E2 j NJ) as [K1 K2]. split.
      * intros (x & v & Dx & Gx). destruct (K1 _ Dx) as (x' & Dx' & S). destruct (sbc_facts _ _ S) as (T1 & _). exists x', v. now rewrite T1.
      * intros (x & v & Dx & Gx). destruct (dget j (hs_rps s)) as [cl0|] eqn:E0; [|rewrite K2 in Dx by reflexivity; discriminate].
        destruct (K1 _ E0) as (x' & Dx' & S). destruct (sbc_facts _ _ S) as (T1 & _). exists cl0, v. split; [exact E0|]. rewrite <- T1. congruence.
Qed.

Lemma at_client_sound i o h : sound h -> call_ok o -> sound (at_client i o h).
Proof.
  intros [N F] Ho. unfold at_client. destruct (dget i h) as [cl|] eqn:E; [|now split].
  split; [now apply NoDup_dset|]. intros j cl' D. destruct (string_dec j i) as [->|NJ].
  - rewrite dget_dset_eq in D. injection D as <-. apply sound_call; auto.
  - rewrite dget_dset_neq in D by congruence. now apply F.
Qed.
(** absence is kept by calls that do not begin the session *)
Lemma call_absent i cl o k : sound_client i cl -> call_ok o -> rnd32 k -> leaves k o ->
  (exists e, get_iss (sdb (cl_ctx cl)) k = Err (KeyError e)) -> exists e, get_iss (sdb (run_call cl o (cl_ctx cl))) k = Err (KeyError e).
Proof.
  intros S Ho Hk Hl [e He]. pose proof (sound_closed _ _ S) as C. destruct S as (P1 & P2 & P3 & ops & F & E).
  destruct (call_writes cl o (cl_ctx cl) P1 Ho C) as (A1 & ops1 & A2 & A3). rewrite A3, E, <- crun_app.
  assert (F1 : Forall (op_ok rnd32) ops) by (eapply Forall_impl; [|exact F]; cbn; tauto).
  assert (F2 : Forall (op_ok rnd32) ops1) by (eapply Forall_impl; [|exact A2]; cbn; tauto).
  destruct (store_observations rnd32 ops rnd32_family F1) as [_ S1]. specialize (S1 k Hk).
  destruct (store_observations rnd32 (ops ++ ops1) rnd32_family ltac:(apply Forall_app; now split)) as [_ S2]. specialize (S2 k Hk).
  assert (L : latest_iss (rev ops) k = None). { rewrite E in He. destruct (latest_iss (rev ops) k); [congruence|reflexivity]. }
  rewrite rev_app_distr in S2.
  assert (L2 : forall l, Forall (fun x => op_ok rnd32 x /\ call_op cl (cl_ctx cl) o x) l -> latest_iss (l ++ rev ops) k = None).
  { induction 1 as [|x l [X1 X2] _ IH]; [exact L|]. destruct x as [rnd j key|? ? ? ?|? ? ?|k']; cbn [latest_iss app]; auto.
    - destruct (String.eqb_spec (created_key rnd key) k) as [Y|_]; [|exact IH]. exfalso.
      destruct o; cbn in X2, Hl; unfold final_op, final_bind, refresh_op, front_op, authz_op, token_op, userinfo_op, logout_op in X2; no_op.
    - destruct (k' =?s k); auto. }
  rewrite L2 in S2; [exact S2|]. apply Forall_rev. exact A2.
Qed.
Lemma hcall_step h o k : sound h -> hcall_ok o -> sound (run_hcall h o) /\
  (rnd32 k -> hleaves k o -> same_sessions k h (run_hcall h o)).
Proof.
  intros S Ho. destruct (hcall_at h o Ho) as [E|(i & c & E & Hc & B & Cl)]; rewrite E.
  { split; [exact S|]. intros _ _ j. tauto. }
  split; [now apply at_client_sound|]. intros Hk Hl.
  assert (Lc : leaves k c). { destruct c; cbn in *; auto; subst o; exact Hl. }
  unfold at_client. destruct (dget i h) as [cl|] eqn:D; [|intros j; tauto].
  pose proof (proj2 S _ _ D) as SC. intros j. destruct (string_dec j i) as [->|NJ].
  - split.
    + intros (x & v & Dx & Gx). assert (x = cl) by congruence. subst x. eexists. exists v. rewrite dget_dset_eq. split; [reflexivity|].
      cbn [cl_ctx set_ctx]. refine (calls_iss cl [c] k v (proj1 SC) _ Hk _ (cl_ctx cl) (sound_closed _ _ SC) Gx).
      * constructor; [exact Hc|constructor].
      * intros o' [<-|[]]. exact Lc.
    + intros (x & v & Dx & Gx). rewrite dget_dset_eq in Dx. injection Dx as <-. cbn [cl_ctx set_ctx] in Gx.
      destruct (sound_iss i cl k SC Hk) as [G|G]; [exists cl, (VStr i); auto|]. exfalso.
      destruct (call_absent i cl c k SC Hc Hk Lc G) as [e X]. congruence.
  - unfold knows. rewrite dget_dset_neq by congruence. tauto.
Qed.

(** ** what clients share *)
Definition beh_member (cfgs : dict (dict val)) (from : dict string) (j : string) : option (dict val) :=
  match dget j from with
  | Some key => match dget key cfgs with
                | Some cnf => match dget "behaviour" cnf with Some (VDict b) => Some b | _ => None end
                | None => None
                end
  | None => None
  end.
Definition coherent (s : hstate) : Prop :=
  forall j cl b, dget j (hs_rps s) = Some cl -> beh_member (hs_cfgs s) (hs_from s) j = Some b -> behaviour (cl_ctx cl) = b.
Lemma share_beh cfgs from rps j cl : dget j rps = Some cl -> exists cl', dget j (share cfgs from rps) = Some cl' /\
  behaviour (cl_ctx cl') = match beh_member cfgs from j with Some b => b | None => behaviour (cl_ctx cl) end.
Proof.
  induction rps as [|[i x] rps IH]; [discriminate|]. cbn [dget share map fst snd]. intros H.
  destruct (String.eqb_spec i j) as [->|N].
  - injection H as ->. unfold beh_member.
    destruct (dget j from) as [key|]; [|exists cl; cbn [dget]; rewrite String.eqb_refl; auto].
    destruct (dget key cfgs) as [cnf|]; [|exists cl; cbn [dget]; rewrite String.eqb_refl; auto].
    cbn [dget]. rewrite String.eqb_refl. eexists. split; [reflexivity|]. unfold reread, set_config, set_ctx. cbn [cl_ctx behaviour].
    destruct (dget "behaviour" cnf) as [v|]; [|reflexivity]. now destruct v.
  - destruct (IH H) as [cl' [A B]]. exists cl'. split; [|exact B].
    assert (E : exists y, (match dget i from with
                | Some key => match dget key cfgs with Some cnf => (i, set_ctx (reread cnf (cl_ctx x)) x) | None => (i, x) end
                | None => (i, x) end) = (i, y)).
    { destruct (dget i from) as [key|]; [|eauto]. destruct (dget key cfgs); eauto. }
    destruct E as [y ->]. cbn [dget]. rewrite (eqb_neq _ _ N). exact A.
Qed.
Lemma share_coherent cfgs from rps hash : coherent (mkh (share cfgs from rps) from cfgs hash).
Proof.
  intros j cl b D B. cbn [hs_rps hs_cfgs hs_from] in *. destruct (dget j rps) as [cl0|] eqn:E.
  - destruct (share_beh cfgs from rps j cl0 E) as [cl' [A A2]]. rewrite B in A2. congruence.
  - pose proof (share_get cfgs from rps j) as G. rewrite E in G. congruence.
Qed.
Lemma setup_new_coherent W H iss beh t s r s' : setup_new W H iss beh t s = (r, s') -> coherent s'.
Proof.
  unfold setup_new. destruct (do_provider_info W (mkp (cl_ctx (tm_client t)) (tm_eps t) [])) as [[v|e] p].
  2:{ intros E. injection E as <- <-. apply share_coherent. }
  destruct (load_registration_response W (tm_client t) (hc_sha H) (hc_seed H)
              (filter (fun kv => dhas (fst kv) registration_params) beh) (p_ctx p)) as [[u|e] c2].
  2:{ intros E. injection E as <- <-. apply share_coherent. }
  destruct v; intros E; injection E as <- <-; apply share_coherent.
Qed.
Lemma client_setup_coherent W H iss user beh s r s' : client_setup W H iss user beh s = (r, s') -> coherent s -> coherent s'.
Proof.
  intros E C. revert E. unfold client_setup. destruct (iss =?s "").
  - destruct (user =?s ""); [intros X; now injection X as <- <-|].
    destruct (init_client H "" (hs_cfgs s)) as [[t|e] cfgs]; [|intros X; injection X as <- <-; apply share_coherent].
    destruct (do_webfinger W H user (tm_client t) (cl_ctx (tm_client t))) as [[w|e] c]; [|intros X; injection X as <- <-; apply share_coherent].
    destruct (dhas iss (hs_rps (set_cfgs cfgs s))); [intros X; injection X as <- <-; apply share_coherent|]. apply setup_new_coherent.
  - destruct (dhas iss (hs_rps s)); [intros X; now injection X as <- <-|].
    destruct (init_client H iss (hs_cfgs s)) as [[t|e] cfgs]; [|intros X; injection X as <- <-; apply share_coherent].
    apply setup_new_coherent.
Qed.
(** calls leave behaviour alone *)
Lemma hcall_coherent s o : sound (hs_rps s) -> hcall_ok o -> coherent s -> coherent (with_rps (run_hcall (hs_rps s) o) s).
Proof.
  intros S Ho C j cl b D B. cbn [hs_rps hs_cfgs hs_from with_rps] in *.
  destruct (hcall_at (hs_rps s) o Ho) as [E|(i & c & E & Hc & _)]; rewrite E in D; [eapply C; eauto|].
  unfold at_client in D. destruct (dget i (hs_rps s)) as [cl0|] eqn:D0; [|eapply C; eauto].
  destruct (string_dec j i) as [->|NJ]; [|rewrite dget_dset_neq in D by congruence; eapply C; eauto].
  rewrite dget_dset_eq in D. injection D as <-. cbn [cl_ctx set_ctx].
  pose proof (proj2 S _ _ D0) as SC. destruct (call_writes cl0 c (cl_ctx cl0) (proj1 SC) Hc (sound_closed _ _ SC)) as (A1 & _).
  rewrite A1. cbn [behaviour set_db]. eapply C; eauto.
Qed.

(** what one setup does to the configurations' behaviour members *)
Definition cfg_beh (cfgs : dict (dict val)) (key : string) : option (dict val) :=
  match dget key cfgs with Some cnf => match dget "behaviour" cnf with Some (VDict b) => Some b | _ => None end | None => None end.
Lemma beh_member_cfg cfgs from j : beh_member cfgs from j = match dget j from with Some key => cfg_beh cfgs key | None => None end.
Proof. reflexivity. Qed.
Lemma use_config_beh iss cfgs r cfgs' : use_config iss cfgs = (r, cfgs') ->
  (forall key, cfg_beh cfgs' key = cfg_beh cfgs key) /\
  (forall key cnf, r = Ok (key, cnf) -> key = (if dhas iss cfgs then iss else "")).
Proof.
  unfold use_config, dhas. destruct (dget iss cfgs) as [c|] eqn:E.
  - intros X. apply pair_inv in X as [<- <-]. split; [reflexivity|]. intros key cnf Y. apply ok_inv in Y. congruence.
  - destruct (dget "" cfgs) as [c|] eqn:E0; intros X; apply pair_inv in X as [<- <-].
    + split; [|intros key cnf Y; apply ok_inv in Y; congruence].
      intros key. unfold cfg_beh. destruct (string_dec key "") as [->|N].
      * rewrite dget_dset_eq, E0. now rewrite dget_dset_neq by discriminate.
      * now rewrite dget_dset_neq by congruence.
    + split; [reflexivity|]. discriminate.
Qed.
Lemma init_client_beh H iss cfgs r cfgs' : init_client H iss cfgs = (r, cfgs') ->
  (forall key, cfg_beh cfgs' key = cfg_beh cfgs key) /\
  (forall t, r = Ok t -> tm_key t = (if dhas iss cfgs then iss else "")).
Proof.
  unfold init_client. destruct (use_config iss cfgs) as [[[key cnf]|e] cf] eqn:E; destruct (use_config_beh _ _ _ _ E) as [A B].
  - intros X. apply pair_inv in X as [<- <-]. split; [exact A|]. intros t. destruct (hc_make H cnf); cbn [rbind]; [|discriminate].
    intros Y. apply ok_inv in Y. subst t. cbn [tm_key]. eauto.
  - intros X. apply pair_inv in X as [<- <-]. split; [exact A|]. discriminate.
Qed.
Lemma write_back_beh key b cfgs key' : key' <> key \/ cfg_beh cfgs key = None -> cfg_beh (write_back key b cfgs) key' = cfg_beh cfgs key'.
Proof.
  unfold write_back, cfg_beh. destruct (dget key cfgs) as [cnf|] eqn:E; [|reflexivity].
  destruct (dget "behaviour" cnf) as [v|] eqn:Eb; [|reflexivity].
  destruct v; try reflexivity. intros [N|N]; [|discriminate]. now rewrite dget_dset_neq by congruence.
Qed.
Lemma setup_new_beh W H iss beh t s r s' j cl : setup_new W H iss beh t s = (r, s') -> coherent s ->
  dget j (hs_rps s) = Some cl -> r <> Ok j -> dget j (hs_from s) <> Some (tm_key t) \/ cfg_beh (hs_cfgs s) (tm_key t) = None ->
  exists cl', dget j (hs_rps s') = Some cl' /\ behaviour (cl_ctx cl') = behaviour (cl_ctx cl).
Proof.
  intros E C D NR Hk.
  assert (G : forall b from rps, dget j from = dget j (hs_from s) -> dget j rps = Some cl ->
     exists cl', dget j (share (write_back (tm_key t) b (hs_cfgs s)) from rps) = Some cl' /\ behaviour (cl_ctx cl') = behaviour (cl_ctx cl)).
  { intros b from rps F R. destruct (share_beh (write_back (tm_key t) b (hs_cfgs s)) from rps j cl R) as [cl' [A B]].
    exists cl'. split; [exact A|]. rewrite B, beh_member_cfg, F. destruct (dget j (hs_from s)) as [key|] eqn:Ef; [|reflexivity].
    rewrite write_back_beh by (destruct Hk as [Hk|Hk]; [left; congruence|now right]).
    destruct (cfg_beh (hs_cfgs s) key) as [b'|] eqn:Eb; [|reflexivity]. symmetry. apply (C j cl b' D). rewrite beh_member_cfg, Ef. exact Eb. }
  revert E. unfold setup_new. destruct (do_provider_info W (mkp (cl_ctx (tm_client t)) (tm_eps t) [])) as [[v|e] p].
  2:{ intros E. injection E as <- <-. cbn [hs_rps]. now apply G. }
  destruct (load_registration_response W (tm_client t) (hc_sha H) (hc_seed H)
              (filter (fun kv => dhas (fst kv) registration_params) beh) (p_ctx p)) as [[u|e] c2].
  2:{ intros E. injection E as <- <-. cbn [hs_rps]. now apply G. }
  destruct v as [| | |i| |]; intros E; injection E as <- <-; cbn [hs_rps]; try now apply G.
  apply G; rewrite dget_dset_neq by congruence; auto.
Qed.
Lemma set_cfgs_beh cfgs s j cl : coherent s -> (forall key, cfg_beh cfgs key = cfg_beh (hs_cfgs s) key) -> dget j (hs_rps s) = Some cl ->
  exists cl', dget j (hs_rps (set_cfgs cfgs s)) = Some cl' /\ behaviour (cl_ctx cl') = behaviour (cl_ctx cl).
Proof.
  intros C E D. unfold set_cfgs. cbn [hs_rps]. destruct (share_beh cfgs (hs_from s) (hs_rps s) j cl D) as [cl' [A B]]. exists cl'. split; [exact A|].
  rewrite B, beh_member_cfg. destruct (dget j (hs_from s)) as [key|] eqn:Ef; [|reflexivity]. rewrite E.
  destruct (cfg_beh (hs_cfgs s) key) as [b|] eqn:Eb; [|reflexivity]. symmetry. apply (C j cl b D). rewrite beh_member_cfg, Ef. exact Eb.
Qed.
Lemma client_setup_beh W H iss user beh s r s' j cl : client_setup W H iss user beh s = (r, s') -> coherent s ->
  dget j (hs_rps s) = Some cl -> (r <> Ok j \/ iss = j) ->
  dget j (hs_from s) <> Some (config_name iss s) \/ cfg_beh (hs_cfgs s) (config_name iss s) = None ->
  exists cl', dget j (hs_rps s') = Some cl' /\ behaviour (cl_ctx cl') = behaviour (cl_ctx cl).
Proof.
  intros E C D NR Hk. revert E. unfold client_setup.
  assert (P : forall t cfgs i, init_client H i (hs_cfgs s) = (Ok t, cfgs) -> i = iss -> forall c,
     r <> Ok j -> setup_new W H iss beh (mktemp (tm_key t) (set_ctx c (tm_client t)) (tm_eps t)) (set_cfgs cfgs s) = (r, s') ->
     exists cl', dget j (hs_rps s') = Some cl' /\ behaviour (cl_ctx cl') = behaviour (cl_ctx cl)).
  { intros t cfgs i Ei -> c NR' X. destruct (init_client_beh _ _ _ _ _ Ei) as [B1 B2]. specialize (B2 t eq_refl).
    destruct (set_cfgs_beh cfgs s j cl C B1 D) as [cl1 [D1 E1]].
    destruct (setup_new_beh _ _ _ _ _ _ _ _ j cl1 X) as [cl2 [D2 E2]]; auto.
    - apply share_coherent.
    - cbn [tm_key]. rewrite B2. unfold set_cfgs. cbn [hs_from hs_cfgs]. rewrite B1. exact Hk.
    - exists cl2. split; [exact D2|congruence]. }
  destruct (String.eqb_spec iss "") as [Ei|Ei].
  - destruct (user =?s ""); [intros X; injection X as <- <-; eauto|].
    destruct (init_client H "" (hs_cfgs s)) as [[t|e] cfgs] eqn:Ec; destruct (init_client_beh _ _ _ _ _ Ec) as [B1 B2];
      [|intros X; injection X as <- <-; now apply set_cfgs_beh].
    destruct (do_webfinger W H user (tm_client t) (cl_ctx (tm_client t))) as [[w|e] c]; [|intros X; injection X as <- <-; now apply set_cfgs_beh].
    destruct (dhas iss (hs_rps (set_cfgs cfgs s))) eqn:Dh; [intros X; injection X as <- <-; now apply set_cfgs_beh|].
    intros X. eapply P; [exact Ec|now rewrite Ei| |exact X]. destruct NR as [NR|NR]; [exact NR|]. exfalso.
    subst j. unfold set_cfgs in Dh. cbn [hs_rps] in Dh. rewrite share_has in Dh. unfold dhas in Dh. rewrite D in Dh. discriminate.
  - destruct (dhas iss (hs_rps s)) eqn:Dh; [intros X; injection X as <- <-; eauto|].
    destruct (init_client H iss (hs_cfgs s)) as [[t|e] cfgs] eqn:Ec; [|intros X; injection X as <- <-; apply set_cfgs_beh; auto; apply (init_client_beh _ _ _ _ _ Ec)].
    intros X. refine (P t cfgs iss Ec eq_refl (cl_ctx (tm_client t)) _ _).
    + destruct NR as [NR|NR]; [exact NR|]. exfalso. subst j. unfold dhas in Dh. rewrite D in Dh. discriminate.
    + destruct t as [kt [cc l1 l2 l3] ep]. exact X.
Qed.
