(** Proofs for T_Bye.v *)
From Verif Require Import Base BaseP Json JsonP Msg M_State S_State P_State M_Ctx M_Codec M_Authz M_ClientAuth M_Service M_Token M_Handler
  S_Service S_Token S_Handler S_Flow S_Trace S_Sched S_Retry P_Ctx P_Authz P_Codec P_ClientAuth P_Service P_Wire P_Token
  P_Token2 P_Handler P_Flow P_Trace P_Flow2 P_Handler2 P_Handler3 P_Handler4 P_Sim P_SimK P_Sched P_Retry S_Traffic S_Honest P_Honest P_Honest2 P_Honest3 P_Honest4
  S_After P_After S_Bye.

Lemma uri_total c : list_of_texts (dget "post_logout_redirect_uris" (register_args c)) -> list_of_texts (dget "post_logout_redirect_uris" (callback c)) ->
  exists o, logout_uri c = Ok o.
Proof.
  intros H1 H2. unfold logout_uri.
  assert (C : exists o, match dget "post_logout_redirect_uris" (callback c) with
    | Some w => if truthy w then let! x := first_of w in Ok (Some x) else Ok None | None => Ok None end = Ok o).
  { destruct (dget "post_logout_redirect_uris" (callback c)) as [w|]; [|eauto]. destruct (H2 w eq_refl) as [[|x l] ->]; cbn; eauto. }
  destruct (dget "post_logout_redirect_uris" (register_args c)) as [v|]; [|exact C].
  destruct (H1 v eq_refl) as [[|x l] ->]; [exact C|]. cbn. eauto.
Qed.

Section Bye.
  Variable k : string.
  Hypothesis Hk : rnd32 k.
  Lemma hint_total i d args : sound k i d -> exists a, multiple_extend_request_args d args k ["id_token"] token_items true = Ok a.
  Proof.
    intros S. destruct (own_session k Hk i d S) as (st & E & X).
    assert (L : forall l args, (forall t, In t l -> In t token_items) -> exists a, mult_extend_loop st args ["id_token"] l true = Ok a).
    { induction l as [|t l IH]; intros a0 Hl; cbn [mult_extend_loop]; [eauto|].
      assert (T : mem_str t state_json_params = true /\ t <> "iss").
      { destruct (Hl t (or_introl eq_refl)) as [<-|[<-|[<-|[]]]]; split; reflexivity || discriminate. }
      destruct (X t (proj1 T) (proj2 T)) as [[-> _]|(it & -> & _)]; [apply IH; cbn in *; auto|].
      destruct (msg_new_total cMessage it eq_refl) as [m ->]. apply IH. cbn in *; auto. }
    unfold multiple_extend_request_args. rewrite E. apply L. auto.
  Qed.
  Lemma logout_total W cl uri c i ep : sound k i (sdb c) -> dget "pre_construct" (conf_of cl "end_session") = None -> can_log_out cl c ep ->
    exists inf c', logout W cl k uri c = (Ok inf, c').
  Proof.
    intros S PC (HS & EP & Q & U1 & U2). unfold logout. rewrite HS.
    set (args := if uri =?s "" then [] else [("post_logout_redirect_uri", VStr uri)]).
    set (s := end_session_svc W cl). set (kw := [("state", VStr k)]).
    destruct (hint_total i (sdb c) args S) as [a EA].
    set (b1 := match dget "id_token" a with Some v => ddel "id_token" (dset "id_token_hint" v a) | None => a end).
    assert (H1 : end_id_token_hint args [] kw c = (Ok (b1, []), c)).
    { unfold end_id_token_hint. change (kw_state kw) with (Ok k : res string). cbn [rbind]. rewrite EA. reflexivity. }
    assert (ST : dget "state" b1 = None).
    { destruct (extend_with _ _ _ _ _ _ _ EA) as [_ X2]. assert (Z : dget "state" a = None).
      { rewrite X2 by discriminate. unfold args. destruct (uri =?s ""); reflexivity. }
      unfold b1. destruct (dget "id_token" a); [|exact Z]. rewrite dget_ddel_neq, dget_dset_neq by discriminate. exact Z. }
    assert (H2 : exists b2, end_post_logout_uri b1 [] kw c = (Ok (b2, []), c) /\ dget "state" b2 = None).
    { unfold end_post_logout_uri. destruct (dhas "post_logout_redirect_uri" b1); [eauto|].
      destruct (uri_total c U1 U2) as [[u|] ->]; cbn [rbind]; [|eauto]. eexists. split; [reflexivity|]. rewrite dget_dset_neq by discriminate. exact ST. }
    destruct H2 as (b2 & H2 & ST2).
    destruct (own_bind k Hk i (sdb c) "logout state" (e_lstate W) S in_logout ltac:(discriminate)) as (d' & E & _).
    set (b3 := dsetdefault "state" (VStr (e_lstate W)) b2).
    assert (H3 : end_add_state (e_lstate W) b2 [] kw c = (Ok (b3, []), set_db d' c)).
    { unfold end_add_state. fold b3. change (kw_state kw) with (Ok k : res string). cbv zeta.
      assert (D : dget "state" b3 = Some (VStr (e_lstate W))) by (unfold b3; rewrite dget_dsetdefault, ST2; reflexivity). rewrite D.
      rewrite bind_run. unfold on_db, store_logout_state2state. rewrite E. reflexivity. }
    assert (H : do_pre_construct s args kw c = (Ok (b3, []), set_db d' c)).
    { unfold do_pre_construct. rewrite method_args_plain by exact PC. change (s_pre s) with [end_id_token_hint; end_post_logout_uri; end_add_state (e_lstate W)].
      cbn [run_pre]. rewrite bind_run, H1. cbn [fst snd]. rewrite bind_run, H2. cbn [fst snd]. rewrite bind_run, H3. reflexivity. }
    assert (HS3 : dhas "state" b3 = true) by (unfold dhas, b3; rewrite dget_dsetdefault, ST2; reflexivity).
    assert (HS4 : dhas "state" (dsetdefault "state" (VStr k) b3) = true) by (unfold dsetdefault; now rewrite HS3).
    destruct (gather_loop_total s (set_db d' c) (c_par (s_cls s)) _ HS4) as [out GO].
    destruct (msg_new_total cEndSessionRequest out eq_refl) as [req Er].
    assert (C : construct s args kw c = (Ok req, set_db d' c)).
    { unfold construct. rewrite bind_run, H. unfold kw at 1. cbn [dget]. change ("state" =?s "state") with true. cbv iota.
      change (mem_str "state" (c_par (s_cls s))) with true. cbv iota.
      rewrite bind_run. unfold gather_request_args. rewrite GO. change (s_gather s) with no_gather. cbn [rbind no_gather].
      rewrite bind_run. unfold lift. change (s_cls s) with cEndSessionRequest. rewrite Er. reflexivity. }
    assert (GU : exists u, get_http_url ep (sent_cls s "" req) req "GET" = Ok u).
    { unfold get_http_url. change (mem_str "GET" ["GET"; "DELETE"]) with true. cbv iota. destruct req; [eauto|].
      unfold msg_to_urlencoded, missing_required. change (c_req (sent_cls s "" (p :: req))) with (@nil string). cbn [existsb]. cbn [rbind]. eauto. }
    destruct GU as [u GU].
    unfold get_request_parameters. change ("" =?s "") with true. cbv iota. change (s_http_method s) with "GET".
    rewrite bind_run. unfold asks. change (s_authn s c) with "". cbv beta.
    rewrite bind_run.
    match goal with |- context [construct ?x1 ?x2 ?x3 ?x4] => change (construct x1 x2 x3 x4) with (construct s args kw x4) end.
    rewrite C. rewrite bind_run. cbv beta.
    rewrite bind_run. unfold get_headers. rewrite bind_run. unfold asks. change ("" =?s "") with true. cbv iota. change (s_authn s (set_db d' c)) with "". rewrite bind_run.
    unfold get_authn_header. change ("" =?s "") with true. cbv iota. rewrite bind_run. change (s_extra s) with (@nil header_method). cbn [run_headers fst snd]. unfold ret.
    rewrite bind_run. change (dget "endpoint" kw) with (@None val). cbv iota.
    unfold get_endpoint. change (s_endpoint s) with "". change ("" =?s "") with true. cbv iota. change (s_endpoint_name s) with "end_session_endpoint".
    change (provider_info (set_db d' c)) with (provider_info c). unfold dict_get. rewrite EP.
    rewrite bind_run. unfold lift. rewrite GU. change ("GET" =?s "POST") with false. cbv iota beta. eexists. eexists. reflexivity.
  Qed.
End Bye.

(** the logout state leads back until the next logout *)
Lemma logout_stays ops n : forall d, Forall (op_ok rnd32) ops -> (forall x, In x ops -> is_remove x = false /\ forall k, x <> Bind "logout state" n k) ->
  get_state_by_logout_state (snd (crun d ops)) n = get_state_by_logout_state d n.
Proof.
  induction ops as [|x ops IH]; intros d F H; [reflexivity|]. inversion F; subst. cbn [crun].
  destruct (H x (or_introl eq_refl)) as [H1' H2'].
  pose proof (index_isolated rnd32 d x "logout state" n rnd32_family H2 in_logout H1' H2') as E.
  destruct (cstep d x) as [y d1]. cbn [snd] in *. specialize (IH d1 H3 (fun o X => H o (or_intror X))).
  destruct (crun d1 ops). cbn [snd] in *. rewrite IH. exact E.
Qed.
Lemma call_logout cl c0 o n k : call_op cl c0 o (Bind "logout state" n k) -> exists W uri, o = CLogout W k uri.
Proof.
  intros C. destruct o; cbn in C.
  - destruct C as (_ & D & _). discriminate.
  - exfalso. destruct C as [(s & _ & [(? & ? & ? & D)|(? & [[(? & ? & D)|(? & ? & D)]|(? & ? & D)])])|(? & ? & ? & ? & ? & ? & ? & ? & ? & ? & ? & ? & ? & ? & [(? & ? & [(? & D)|(? & D)])|(? & ? & D)])]; discriminate.
  - destruct C as (s & _ & ? & ? & ? & D). discriminate.
  - destruct C as [(? & ? & D)|(? & ? & D)]; discriminate.
  - destruct C as (? & ? & D); discriminate.
  - destruct C as (? & ? & D). discriminate.
  - destruct C as (v & D). injection D as <- <-. eauto.
  - discriminate.
Qed.
Section Exact.
  Variable c00 : ctx.
  Notation wr := (writes rnd32 c00).
  Lemma w_logout_exact W cl k uri : rnd32 k -> dget "pre_construct" (conf_of cl "end_session") = None ->
    wr (fun o => o = Bind "logout state" (e_lstate W) k) (logout W cl k uri) P_Trace.any.
  Proof.
    intros Hk PC. unfold logout. destruct (has_service _ _); [|apply w_raise].
    apply w_grp; [exact rnd32_family|reflexivity|]. unfold construct.
    eapply (w_bind rnd32 rnd32_family c00) with (Q := P_Trace.any).
    - unfold do_pre_construct. rewrite method_args_plain by exact PC.
      change (s_pre (end_session_svc W cl)) with [end_id_token_hint; end_post_logout_uri; end_add_state (e_lstate W)]. cbn [run_pre].
      eapply (w_bind rnd32 rnd32_family c00) with (Q := fun r : dict val * dict val => dget "state" (fst r) = None).
      { apply w_pure; [reflexivity|]. intros c a. unfold end_id_token_hint. change (kw_state [("state", VStr k)]) with (Ok k : res string). cbn [rbind].
        destruct (multiple_extend_request_args (sdb c) _ k ["id_token"] token_items true) as [a1|] eqn:E; [|discriminate]. cbn [rbind fst snd].
        intros [= <-]. cbn [fst]. destruct (extend_with _ _ _ _ _ _ _ E) as [_ X]. assert (Z : dget "state" a1 = None).
        { rewrite X by discriminate. destruct (uri =?s ""); reflexivity. }
        destruct (dget "id_token" a1); [|exact Z]. rewrite dget_ddel_neq, dget_dset_neq by discriminate. exact Z. }
      intros [a1 p1] H1. cbn [fst snd] in *.
      eapply (w_bind rnd32 rnd32_family c00) with (Q := fun r : dict val * dict val => dget "state" (fst r) = None).
      { apply w_pure; [reflexivity|]. intros c a. unfold end_post_logout_uri. destruct (dhas _ a1); [intros [= <-]; exact H1|].
        destruct (logout_uri c) as [[u|]|]; [| |discriminate]; cbn [rbind fst snd]; intros [= <-]; cbn [fst]; [rewrite dget_dset_neq by discriminate|]; exact H1. }
      intros [a2 p2] H2. cbn [fst snd] in *.
      eapply (w_bind rnd32 rnd32_family c00) with (Q := P_Trace.any); [|intros r _; now apply w_ret].
      unfold end_add_state. change (kw_state [("state", VStr k)]) with (Ok k : res string).
      assert (D : dget "state" (dsetdefault "state" (VStr (e_lstate W)) a2) = Some (VStr (e_lstate W))) by (rewrite dget_dsetdefault, H2; reflexivity). cbv zeta. rewrite D.
      eapply (w_bind rnd32 rnd32_family c00); [apply w_bindx; [exact Hk|apply in_logout|reflexivity]|]. intros _ _. now apply w_ret.
    - intros [a1 post] _. eapply (w_bind rnd32 rnd32_family c00) with (Q := P_Trace.any); [now apply w_any_pure|].
      intros a3 _. eapply (w_bind rnd32 rnd32_family c00) with (Q := P_Trace.any); [apply w_lift; intros; exact I|].
      intros req _. unfold do_post_construct. apply (w_run_post rnd32 rnd32_family c00). intros m Hm. contradiction.
  Qed.
End Exact.
Lemma logout_still1 cl c0 o c n : plain_client cl -> call_ok o -> closed rnd32 (sdb c) -> c = set_db (sdb c) c0 -> spares_logout n o ->
  get_state_by_logout_state (sdb (run_call cl o c)) n = get_state_by_logout_state (sdb c) n.
Proof.
  intros PC OK CL E H. destruct (match o with CLogout _ _ _ => true | _ => false end) eqn:L.
  - destruct o as [| | | | | |W st uri|]; try discriminate. cbn [run_call call_ok spares_logout] in *. destruct PC as [PC1 PC2].
    destruct (logout W cl st uri c) as [r c'] eqn:R.
    destruct (w_logout_exact c0 W cl st uri OK PC2 c (conj CL E) _ _ R) as (_ & (ops & F & W0) & _). cbn [snd]. rewrite W0. apply logout_stays.
    + eapply Forall_impl; [|exact F]. cbn; tauto.
    + intros x Hx. rewrite Forall_forall in F. destruct (F x Hx) as (_ & ->). split; [reflexivity|]. intros k [= <- _]. now apply H.
  - destruct (call_writes_from c0 cl o c PC OK CL E) as (_ & ops & F & W0). rewrite W0. apply logout_stays.
    + eapply Forall_impl; [|exact F]. cbn; tauto.
    + intros x Hx. rewrite Forall_forall in F. destruct (F x Hx) as (_ & Hc). split.
      * destruct x; try reflexivity. apply call_remove in Hc. subst o. contradiction.
      * intros k ->. apply call_logout in Hc. destruct Hc as (W' & r & ->). discriminate.
Qed.
Lemma logout_still cl os c0 : plain_client cl -> Forall call_ok os -> forall c1 n, closed rnd32 (sdb c1) -> c1 = set_db (sdb c1) c0 ->
  (forall o, In o os -> spares_logout n o) ->
  get_state_by_logout_state (sdb (run_calls cl os c1)) n = get_state_by_logout_state (sdb c1) n.
Proof.
  intros PC OK. induction OK as [|o os O1 O2 IH]; intros c1 n CL E H; [reflexivity|].
  change (run_calls cl (o :: os) c1) with (run_calls cl os (run_call cl o c1)).
  destruct (call_writes_from c0 cl o c1 PC O1 CL E) as (W & ops & F & D). rewrite IH.
  - apply (logout_still1 cl c0); auto. apply H. now left.
  - rewrite D. eapply closed_run; [exact rnd32_family|exact CL|]. eapply Forall_impl; [|exact F]. cbn; tauto.
  - rewrite W at 1. rewrite E at 2. reflexivity.
  - intros o' Ho. apply H. now right.
Qed.
