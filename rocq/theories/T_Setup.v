(** Property theorems C09 and C47: setting up clients.  Model in M_Setup.v, specification
    in S_Setup.v, proofs in P_Setup.v. *)
From Verif Require Import Base BaseP Json JsonP Msg M_State S_State P_State M_Ctx M_Codec M_Authz M_ClientAuth
  M_Service M_Token M_Handler S_Service S_Token S_Handler S_Flow S_Trace S_Route P_Ctx P_Authz P_Codec P_ClientAuth P_Service P_Wire P_Token
  P_Handler P_Flow P_Token2 P_Trace P_Flow2 P_Handler2 P_Route M_Provider S_Provider P_Provider T_Provider M_Registration S_Registration P_Registration
  M_WebFinger M_Setup S_Setup P_Setup Ex.

(** ** one call *)
(** a client that exists is used as it is: nothing is requested, nothing changes *)
Theorem C09_existing_client_is_reused : forall W H iss user beh s, iss <> "" -> dget iss (hs_rps s) <> None ->
  client_setup W H iss user beh s = (Ok iss, s).
Proof.
  intros W H iss user beh s N D. unfold client_setup. rewrite (eqb_neq _ _ N). unfold dhas. now destruct (dget iss (hs_rps s)).
Qed.
Print Assumptions C09_existing_client_is_reused.
(** a setup that fails leaves every client and its sessions in place and adds none *)
Theorem C09_failed_setup_leaves_clients : forall W H iss user beh s e s', client_setup W H iss user beh s = (Err e, s') ->
  dkeys (hs_rps s') = dkeys (hs_rps s) /\ forall j, kept j s s'.
Proof. intros W H iss user beh s e s' E. exact (client_setup_outcome _ _ _ _ _ _ _ _ E). Qed.
Print Assumptions C09_failed_setup_leaves_clients.
(** a setup that succeeds leaves every other client in place; the one it returns has no
    sessions if it is new *)
Theorem C09_setup_touches_one_client : forall W H iss user beh s i s', client_setup W H iss user beh s = (Ok i, s') ->
  (forall j, j <> i -> kept j s s' /\ (dget j (hs_rps s) = None -> dget j (hs_rps s') = None)) /\
  (dget iss (hs_rps s) = None -> exists cl, dget i (hs_rps s') = Some cl /\ sdb (cl_ctx cl) = []) /\
  (dget iss (hs_rps s) <> None -> i = iss /\ kept i s s').
Proof.
  intros W H iss user beh s i s' E. apply client_setup_outcome in E. cbn beta iota in E. unfold dhas in E.
  destruct E as [(E1 & -> & K & _)|(E1 & A & cl & D & S0 & _)].
  - split; [intros j _; split; [apply K|intros X; now apply (all_kept_none j s s' K)]|].
    split; [intros X; rewrite X in E1; discriminate|]. intros _. split; [reflexivity|apply K].
  - split; [exact A|]. split; [intros _; eauto|]. intros X. destruct (dget iss (hs_rps s)); [discriminate|contradiction].
Qed.
Print Assumptions C09_setup_touches_one_client.

(** the key under which a client is filed, when provider information is discovered and
    mismatches are not allowed: its own issuer, the configured one up to a slash *)
Theorem C09_filed_under_its_issuer : forall W H iss user beh s i s' key cnf cfgs, iss <> "" ->
  client_setup W H iss user beh s = (Ok i, s') -> dget iss (hs_rps s) = None ->
  use_config iss (hs_cfgs s) = (Ok (key, cnf), cfgs) ->
  sub_dict "provider_info" cnf = [] -> dget "issuer" cnf = Some (VStr iss) ->
  dhas "issuer_mismatch" (sub_dict "allow" cnf) = false -> dget "srv_discovery_url" cnf = None ->
  (forall c m m', e_vrf W "provider_info" c m = Ok m' -> exists j, dget "issuer" m' = Some (VStr j)) ->
  same_issuer i iss /\ forall cl, dget i (hs_rps s') = Some cl -> issuer (cl_ctx cl) = i.
Proof.
  intros W H iss user beh s i s' key cnf cfgs Ni E D U Hpi Hiss Hal Hsrv Hv.
  unfold client_setup in E. rewrite (eqb_neq _ _ Ni) in E. unfold dhas in E. rewrite D in E.
  unfold init_client in E. rewrite U in E. destruct (hc_make H cnf) as [m|e]; cbn [rbind] in E; [|discriminate].
  apply setup_new_outcome in E. cbn beta iota in E. destruct E as (_ & c2 & cl' & D2 & S & _ & p & Hp & Hi).
  set (c0 := new_ctx (hc_base H) (hc_jwks_uri H) cnf) in *. cbn [tm_client cl_ctx tm_eps] in Hp.
  assert (F : provider_info c0 = [] /\ allow c0 = sub_dict "allow" cnf /\ config c0 = cnf /\ issuer c0 = iss).
  { unfold c0, new_ctx. cbn [provider_info allow config issuer]. rewrite Hiss. cbn [str_of]. rewrite (eqb_neq _ _ Ni). auto. }
  destruct F as (F1 & F2 & F3 & F4). clearbody c0.
  unfold do_provider_info in Hp. cbn [p_ctx] in Hp. rewrite F1 in Hp.
  destruct (dynamic_discovery W (mkp c0 (md_eps m) [])) as [[u|e] p1] eqn:Ed; [|discriminate].
  apply pair_inv in Hp as [Hp <-].
  pose proof (fun url Hw => C27_discovery_outcome W _ _ _ url Hw Ed) as O0. cbn [p_ctx] in O0. destruct (well_known_ex (discovery_issuer c0)) as [url Hwk]. pose proof (O0 url Hwk) as O. clear O0. cbn [p_ctx] in O. rewrite F2 in O. specialize (O Hal Hv).
  assert (DI : discovery_issuer c0 = iss) by (unfold discovery_issuer; rewrite F3, Hsrv; exact F4). rewrite DI in O.
  destruct O as [O|[(m' & j & resp & O1 & O2 & O3 & O4 & _)|(resp & _ & _ & O & _)]].
  - rewrite O, F1 in Hp. discriminate.
  - rewrite O1 in Hp. unfold dict_get in Hp. rewrite O2 in Hp. injection Hp as ->. split; [exact O3|].
    intros cl Dcl. assert (cl = cl') by congruence. subst cl. destruct (sbc_facts _ _ S) as (_ & S2 & _). rewrite S2.
    cbn [cl_ctx set_ctx]. congruence.
  - rewrite O in Hp. discriminate.
Qed.
Print Assumptions C09_filed_under_its_issuer.
(** so such a setup is harmless unless a client is filed under the issuer's other spelling *)
Theorem C09_discovered_setup_is_harmless : forall W H iss user beh s key cnf cfgs, iss <> "" ->
  use_config iss (hs_cfgs s) = (Ok (key, cnf), cfgs) ->
  sub_dict "provider_info" cnf = [] -> dget "issuer" cnf = Some (VStr iss) ->
  dhas "issuer_mismatch" (sub_dict "allow" cnf) = false -> dget "srv_discovery_url" cnf = None ->
  (forall c m m', e_vrf W "provider_info" c m = Ok m' -> exists j, dget "issuer" m' = Some (VStr j)) ->
  (forall j, same_issuer j iss -> j <> iss -> dget j (hs_rps s) = None) -> iss <> "/" ->
  harmless_setup W H iss user beh s.
Proof.
  intros W H iss user beh s key cnf cfgs Ni U Hpi Hiss Hal Hsrv Hv Hj Ns. unfold harmless_setup.
  destruct (client_setup W H iss user beh s) as [[i|e] s'] eqn:E; [|exact I].
  destruct (dget iss (hs_rps s)) as [cl|] eqn:D; [left; discriminate|right].
  destruct (C09_filed_under_its_issuer _ _ _ _ _ _ _ _ _ _ _ Ni E D U Hpi Hiss Hal Hsrv Hv) as [A B].
  split; [|split; [|exact B]].
  - destruct (string_dec i iss) as [->|N]; [exact D|now apply Hj].
  - intros ->. inversion A; subst; [contradiction| |].
    + destruct iss; discriminate.
    + contradiction Ns. reflexivity.
Qed.
Print Assumptions C09_discovered_setup_is_harmless.

(** ** histories *)
Lemma on_client_snd {A} i (f : client -> M A) h : snd (on_client i f h) =
  match dget i h with None => h | Some cl => dset i (set_ctx (snd (f cl (cl_ctx cl))) cl) h end.
Proof. unfold on_client. destruct (dget i h) as [cl|]; [|reflexivity]. now destruct (f cl (cl_ctx cl)). Qed.
Lemma begin_run W H iss user reqs beh s :
  snd (begin W H iss user reqs beh s) =
  match client_setup W H iss user (match beh with Some b => b | None => [] end) s with
  | (Err _, s1) => s1
  | (Ok i, s1) => with_rps (run_hcall (hs_rps s1) (HInit W i reqs beh)) s1
  end.
Proof.
  unfold begin. destruct (client_setup W H iss user _ s) as [[i|e] s1]; [|reflexivity]. cbn [run_hcall].
  now destruct (on_client i (fun cl => init_authorization W cl reqs beh) (hs_rps s1)).
Qed.
Lemma step_sound s x : step_ok s x -> sound (hs_rps s) -> sound (hs_rps (run_step s x)) /\
  forall k, rnd32 k -> step_leaves k x -> same_sessions k (hs_rps s) (hs_rps (run_step s x)).
Proof.
  intros O S. destruct x as [W H iss user reqs beh|W H iss user beh|o]; cbn [step_ok run_step step_leaves] in *.
  - destruct O as (O1 & O2 & O3). rewrite begin_run. destruct (setup_step W H iss user _ s O2 O3 S) as [S1 S2].
    destruct (client_setup W H iss user (match beh with Some b => b | None => [] end) s) as [[i|e] s1]; cbn [snd] in *; [|auto].
    cbn [hs_rps with_rps]. split.
    + apply (hcall_step (hs_rps s1) (HInit W i reqs beh) "" S1 O1).
    + intros k Hk L. eapply same_sessions_trans; [now apply S2|]. now apply hcall_step.
  - destruct O as (O1 & O2). destruct (setup_step W H iss user beh s O1 O2 S) as [S1 S2]. auto.
  - split; [apply (hcall_step (hs_rps s) o "" S O)|]. intros k Hk L. now apply hcall_step.
Qed.
Lemma steps_sound xs : forall s, steps_ok s xs -> sound (hs_rps s) -> sound (hs_rps (run_steps s xs)) /\
  forall k, rnd32 k -> Forall (step_leaves k) xs -> same_sessions k (hs_rps s) (hs_rps (run_steps s xs)).
Proof.
  induction xs as [|x xs IH]; intros s O S.
  - split; [exact S|]. intros k _ _ i. tauto.
  - destruct O as [O1 O2]. destruct (step_sound s x O1 S) as [A1 A2]. destruct (IH _ O2 A1) as [B1 B2].
    split; [exact B1|]. intros k Hk L. inversion L; subst. eapply same_sessions_trans; [apply A2; auto|apply B2; auto].
Qed.
Lemma steps_ok_app xs ys : forall s, steps_ok s (xs ++ ys) -> steps_ok s xs /\ steps_ok (run_steps s xs) ys.
Proof.
  induction xs as [|x xs IH]; intros s O; [split; [exact I|exact O]|]. destruct O as [O1 O2]. destruct (IH _ O2) as [A B].
  split; [split; assumption|exact B].
Qed.

(** From a handler without clients, whatever the application does - setting up further
    clients for further issuers, with discovery and registration succeeding or failing,
    beginning, finishing, refreshing and clearing other sessions: the key of a begun
    session leads to the client that began it and this client still has the session. *)
Theorem C09_pending_sessions_stay_reachable : forall s xs W H iss user reqs beh ys u k s1,
  no_clients s -> steps_ok s (xs ++ SBegin W H iss user reqs beh :: ys) -> (forall m v, e_hash W m v <> "") ->
  begin W H iss user reqs beh (run_steps s xs) = (Ok (u, k), s1) ->
  Forall (step_leaves k) xs -> Forall (step_leaves k) ys ->
  exists i, fst (client_setup W H iss user (match beh with Some b => b | None => [] end) (run_steps s xs)) = Ok i /\
    client_of_session (hs_rps (run_steps s1 ys)) k = Ok i /\ knows (hs_rps (run_steps s1 ys)) i k.
Proof.
  intros s xs W H iss user reqs beh ys u k s1 N O HH B Lx Ly. apply steps_ok_app in O as [O1 [O2 O3]].
  assert (S0 : sound (hs_rps s)) by (rewrite N; split; [constructor|discriminate]).
  destruct (steps_sound xs s O1 S0) as [S1 K1].
  assert (E1 : run_step (run_steps s xs) (SBegin W H iss user reqs beh) = s1) by (cbn [run_step]; now rewrite B).
  rewrite E1 in O3.
  destruct O2 as (R32 & MP & HS). destruct (setup_step W H iss user _ _ MP HS S1) as [S2 K2].
  unfold begin in B. destruct (client_setup W H iss user (match beh with Some b => b | None => [] end) (run_steps s xs)) as [[i|e] s2]; [|discriminate].
  cbn [snd fst] in *. exists i. split; [reflexivity|].
  unfold on_client in B. destruct (dget i (hs_rps s2)) as [cl|] eqn:D; [|discriminate].
  destruct (init_authorization W cl reqs beh (cl_ctx cl)) as [r c1] eqn:I. injection B as -> Es1.
  pose proof (proj2 S2 _ _ D) as SC. pose proof (sound_closed _ _ SC) as CL.
  destruct SC as (PC & IS & NE & ops & _ & _).
  destruct (init_spec rnd32 _ _ _ _ _ _ _ _ rnd32_family R32 (proj1 PC) HH I) as (Ek & args & req & ep & _ & _ & _ & _ & _ & _ & _ & G & _).
  assert (Hk : rnd32 k) by (now rewrite Ek).
  rewrite IS in G. specialize (G NE).
  destruct (step_sound (run_steps s xs) (SBegin W H iss user reqs beh) (conj R32 (conj MP HS)) S1) as [S3 _]. rewrite E1 in S3.
  destruct (steps_sound ys s1 O3 S3) as [S4 K4]. specialize (K4 k Hk Ly).
  assert (KN : knows (hs_rps s1) i k).
  { rewrite <- Es1. cbn [hs_rps with_rps]. eexists. exists (VStr i). rewrite dget_dset_eq. split; [reflexivity|]. exact G. }
  assert (UN : forall j, j <> i -> ~ knows (hs_rps s1) j k).
  { intros j NJ (x & v & Dx & Gx). rewrite <- Es1 in Dx. cbn [hs_rps with_rps] in Dx. rewrite dget_dset_neq in Dx by congruence.
    assert (X : knows (hs_rps s) j k) by (apply (K1 k Hk Lx), (K2 k Hk); now exists x, v).
    destruct X as (y & w & Dy & _). rewrite N in Dy. discriminate. }
  apply K4 in KN. split; [|exact KN].
  apply sound_route; auto. intros j NJ X. apply K4 in X. now apply (UN j NJ).
Qed.
Print Assumptions C09_pending_sessions_stay_reachable.

(** ** a concrete world: discovery, dynamic registration and WebFinger of two providers *)
Definition op_pcr (iss : string) : dict val :=
  [("issuer", VStr iss); ("authorization_endpoint", VStr (iss ++ "/a")); ("token_endpoint", VStr (iss ++ "/t"));
   ("registration_endpoint", VStr (iss ++ "/reg")); ("response_types_supported", strs ["code"])].
Definition su_http : http_client := fun u m b h =>
  let js d := Ok (mkresp 200 (Some "application/json") (json_dumps (VDict d))) in
  if u =?s "https://op.example/.well-known/openid-configuration" then js (op_pcr "https://op.example")
  else if u =?s "https://op2.example/.well-known/openid-configuration" then js (op_pcr "https://op2.example")
  else if starts_with "https://op.example/.well-known/webfinger" u then
    js [("subject", VStr "acct:bob@op.example"); ("links", VList [VDict [("rel", VStr OIC_ISSUER); ("href", VStr "https://op.example")]])]
  else if starts_with "https://nolink.example/.well-known/webfinger" u then
    js [("subject", VStr "acct:bob@nolink.example"); ("links", VList [])]
  else if starts_with "https://op2.example/.well-known/webfinger" u then
    js [("subject", VStr "acct:eve@op2.example"); ("links", VList [VDict [("rel", VStr OIC_ISSUER); ("href", VStr "https://op2.example")]])]
  else js [("client_id", VStr "c1"); ("client_secret", VStr "s1")].
Definition su_env (state : string) : env :=
  mkenv 1000 ("N" ++ state) state "x2" "n2" "LsLsLsLsLsLsLsLsLsLsLsLsLsLsLsLs" su_http (fun _ _ => Err OtherError)
    (fun n c m => if n =?s "provider_info" then match dget "issuer" m with Some (VStr _) => Ok m | _ => Err MissingRequiredAttribute end else Ok m)
    (fun _ => Ok None) (fun _ _ _ _ => Ok "reqobj") ex_authn (fun n => 7 * n) (fun m v => (m ++ "digest")%string).
Definition su_eps : list sep :=
  [mksep "webfinger" "" (VStr ""); mksep "provider_info" "" (VStr ""); mksep "registration" "registration_endpoint" (VStr "");
   mksep "authorization" "authorization_endpoint" (VStr ""); mksep "accesstoken" "token_endpoint" (VStr "")].
Definition su_conf : hconf :=
  mkhc "https://rp.example" "" (fun _ => Ok (mkmade (map sep_name su_eps) [] false su_eps)) "seed" (fun s => "H")
    (fun _ => true).
(** the default configuration, for providers not known in advance *)
Definition su_default : dict val :=
  [("client_preferences", VDict [("response_types", strs ["code"]); ("scope", strs ["openid"])]);
   ("redirect_uris", strs ["https://rp.example/cb"])].
Definition su_state (cnf : dict val) : hstate := mkh [] [] [("", cnf)] [].
Definition kA := "AAAAAAAAAAAAAAAAAAAAAAAAAAAAAAAA".
Definition kB := "BBBBBBBBBBBBBBBBBBBBBBBBBBBBBBBB".
Definition su_begin (k iss user : string) : step := SBegin (su_env k) su_conf iss user [] None.

Example su_plain : makes_plain su_conf.
Proof. intros cnf m c E. injection E as <-. split; [repeat split|reflexivity]. Qed.
Example ex_C09 : let s := su_state su_default in
  let xs := [su_begin kA "https://op.example" ""; su_begin kB "https://op2.example" ""] in
  let s' := run_steps s xs in
  no_clients s /\ steps_ok s xs /\ dkeys (hs_rps s') = ["https://op.example"; "https://op2.example"] /\
  client_of_session (hs_rps s') kA = Ok "https://op.example" /\ client_of_session (hs_rps s') kB = Ok "https://op2.example".
Proof.
  cbn zeta. split; [reflexivity|]. split.
  - assert (G : forall s iss, match client_setup (su_env kA) su_conf iss "" [] s with (Ok i, _) => i = iss | _ => True end -> True) by auto.
    split; [|split; [|exact I]].
    + split; [split; reflexivity|]. split; [exact su_plain|]. unfold harmless_setup.
      vm_compute. right. split; [reflexivity|]. split; [discriminate|]. intros cl E. injection E as <-. reflexivity.
    + split; [split; reflexivity|]. split; [exact su_plain|]. unfold harmless_setup.
      vm_compute. right. split; [reflexivity|]. split; [discriminate|]. intros cl E. injection E as <-. reflexivity.
  - vm_compute. repeat split.
Qed.

(** ** findings *)
(** The unrestricted property is false: logging in a second user of the same provider by
    WebFinger (the user's identifier given, not the issuer) always makes a new client,
    which replaces the one with the pending sessions. *)
Theorem C09_webfinger_login_drops_sessions_refuted :
  let s1 := run_steps (su_state su_default) [su_begin kA "" "bob@op.example"] in
  let s2 := run_steps s1 [su_begin kB "" "bob@op.example"] in
  client_of_session (hs_rps s1) kA = Ok "https://op.example" /\
  client_of_session (hs_rps s2) kA = Err (KeyError "None") /\ client_of_session (hs_rps s2) kB = Ok "https://op.example".
Proof. vm_compute. repeat split. Qed.
Print Assumptions C09_webfinger_login_drops_sessions_refuted.
(** The same happens with an issuer named with a trailing slash the provider does not use. *)
Theorem C09_issuer_with_slash_drops_sessions_refuted :
  let s1 := run_steps (su_state su_default) [su_begin kA "https://op.example/" ""] in
  let s2 := run_steps s1 [su_begin kB "https://op.example/" ""] in
  client_of_session (hs_rps s1) kA = Ok "https://op.example" /\
  client_of_session (hs_rps s2) kA = Err (KeyError "None") /\ client_of_session (hs_rps s2) kB = Ok "https://op.example".
Proof. vm_compute. repeat split. Qed.
Print Assumptions C09_issuer_with_slash_drops_sessions_refuted.
(** A client with configured provider information is filed under the issuer named there; if
    that is not the configured issuer its sessions lead nowhere from the start. *)
Definition su_static : dict val :=
  [("issuer", VStr "https://op.example"); ("client_id", VStr "c"); ("redirect_uris", strs ["https://rp.example/cb"]);
   ("behaviour", VDict [("response_types", strs ["code"]); ("scope", strs ["openid"])]);
   ("provider_info", VDict (op_pcr "https://op.example/"))].
Definition is_ok {A} (r : res A) : bool := match r with Ok _ => true | Err _ => false end.
Definition session_issuer (h : handler) (i k : string) : res val :=
  match dget i h with Some cl => get_iss (sdb (cl_ctx cl)) k | None => Err (KeyError i) end.
Theorem C09_other_issuer_in_provider_info_refuted :
  let x := begin (su_env kA) su_conf "op" "" [] None (mkh [] [] [("op", su_static)] []) in
  is_ok (fst x) = true /\ dkeys (hs_rps (snd x)) = ["https://op.example/"] /\
  session_issuer (hs_rps (snd x)) "https://op.example/" kA = Ok (VStr "https://op.example") /\
  client_of_session (hs_rps (snd x)) kA = Err (KeyError "https://op.example").
Proof. cbv zeta. repeat split; vm_compute; reflexivity. Qed.
Print Assumptions C09_other_issuer_in_provider_info_refuted.
(** The answer of WebFinger need not name an issuer: the login then silently goes on with
    the issuer that the previous login left in the default configuration. *)
Theorem C33_answer_without_issuer_uses_previous_one_refuted :
  let s1 := run_steps (su_state su_default) [su_begin kA "https://op2.example" ""] in
  let x := begin (su_env kB) su_conf "" "bob@nolink.example" [] None s1 in
  is_ok (fst x) = true /\ client_of_session (hs_rps (snd x)) kB = Ok "https://op2.example".
Proof. cbv zeta. repeat split; vm_compute; reflexivity. Qed.
Print Assumptions C33_answer_without_issuer_uses_previous_one_refuted.

(** ** C47: setting up a client does not change how another one behaves *)
Lemma steps_coherent xs : forall s, steps_ok s xs -> sound (hs_rps s) -> coherent s -> coherent (run_steps s xs).
Proof.
  induction xs as [|x xs IH]; intros s O S C; [exact C|]. destruct O as [O1 O2]. apply IH; [exact O2|apply (step_sound s x O1 S)|].
  destruct x as [W H iss user reqs beh|W H iss user beh|o]; cbn [step_ok run_step] in *.
  - destruct O1 as (R & MP & HS). pose proof (setup_step W H iss user _ s MP HS S) as [S1 _]. rewrite begin_run.
    destruct (client_setup W H iss user (match beh with Some b => b | None => [] end) s) as [[i|e] s1] eqn:E; cbn [snd] in S1;
      pose proof (client_setup_coherent _ _ _ _ _ _ _ _ E C) as C1; [|exact C1]. now apply hcall_coherent.
  - destruct (client_setup W H iss user beh s) as [r s1] eqn:E. eapply client_setup_coherent; eauto.
  - now apply hcall_coherent.
Qed.
(** at any moment of a history: if the two clients are not made from one configuration, or
    that configuration has no 'behaviour' of its own, the other client's behaviour stays *)
Theorem C47_behaviour_is_not_shared : forall s0 xs W H iss user beh r s' j cl,
  no_clients s0 -> steps_ok s0 xs -> let s := run_steps s0 xs in
  client_setup W H iss user beh s = (r, s') -> dget j (hs_rps s) = Some cl -> r <> Ok j \/ iss = j ->
  dget j (hs_from s) <> Some (config_name iss s) \/ ~ holds_behaviour (config_name iss s) s ->
  exists cl', dget j (hs_rps s') = Some cl' /\ behaviour (cl_ctx cl') = behaviour (cl_ctx cl).
Proof.
  intros s0 xs W H iss user beh r s' j cl N O s E D NR Hk.
  assert (S0 : sound (hs_rps s0)) by (rewrite N; split; [constructor|discriminate]).
  assert (C0 : coherent s0) by (intros i x b Dx; rewrite N in Dx; discriminate).
  eapply client_setup_beh; eauto; [now apply steps_coherent|].
  destruct Hk as [Hk|Hk]; [now left|right]. unfold cfg_beh. destruct (dget (config_name iss s) (hs_cfgs s)) as [cnf|] eqn:Ec; [|reflexivity].
  destruct (dget "behaviour" cnf) as [v|] eqn:Eb; [|reflexivity]. destruct v; try reflexivity. exfalso. apply Hk. now exists cnf, d.
Qed.
Print Assumptions C47_behaviour_is_not_shared.
Definition behaviour_at (h : handler) (i k : string) : option val :=
  match dget i h with Some cl => dget k (behaviour (cl_ctx cl)) | None => None end.
(** finding: the default configuration with a 'behaviour': the negotiation with the second
    provider rewrites what was negotiated with the first *)
Definition su_shared : dict val :=
  [("behaviour", VDict [("scope", strs ["openid"])]);
   ("client_preferences", VDict [("response_types", strs ["code"]); ("token_endpoint_auth_method", strs ["client_secret_basic"; "private_key_jwt"])]);
   ("redirect_uris", strs ["https://rp.example/cb"])].
Definition su_http2 : http_client := fun u m b h =>
  let js d := Ok (mkresp 200 (Some "application/json") (json_dumps (VDict d))) in
  if u =?s "https://op.example/.well-known/openid-configuration" then
    js (("token_endpoint_auth_methods_supported", strs ["client_secret_basic"]) :: op_pcr "https://op.example")
  else if u =?s "https://op2.example/.well-known/openid-configuration" then
    js (("token_endpoint_auth_methods_supported", strs ["private_key_jwt"]) :: op_pcr "https://op2.example")
  else js [("client_id", VStr "c1"); ("client_secret", VStr "s1")].
Definition su_begin2 (k iss user : string) : step := SBegin (with_http (su_env k) su_http2) su_conf iss user [] None.
Theorem C47_shared_default_behaviour_refuted :
  let s1 := run_steps (su_state su_shared) [su_begin2 kA "https://op.example" ""] in
  let s2 := run_steps s1 [su_begin2 kB "https://op2.example" ""] in
  behaviour_at (hs_rps s1) "https://op.example" "token_endpoint_auth_method" = Some (VStr "client_secret_basic") /\
  behaviour_at (hs_rps s2) "https://op.example" "token_endpoint_auth_method" = Some (VStr "private_key_jwt").
Proof. cbv zeta. split; vm_compute; reflexivity. Qed.
Print Assumptions C47_shared_default_behaviour_refuted.
(** the same without a 'behaviour' in the configuration *)
Example ex_C47 :
  let s1 := run_steps (su_state (ddel "behaviour" su_shared)) [su_begin2 kA "https://op.example" ""] in
  let s2 := run_steps s1 [su_begin2 kB "https://op2.example" ""] in
  behaviour_at (hs_rps s1) "https://op.example" "token_endpoint_auth_method" = Some (VStr "client_secret_basic") /\
  behaviour_at (hs_rps s2) "https://op.example" "token_endpoint_auth_method" = Some (VStr "client_secret_basic") /\
  behaviour_at (hs_rps s2) "https://op2.example" "token_endpoint_auth_method" = Some (VStr "private_key_jwt").
Proof. cbv zeta. repeat split; vm_compute; reflexivity. Qed.
