(** Property theorem C74: logging in at a provider of which only the issuer is known.
    Specification in S_Dyn.v, proofs in P_Dyn.v. *)
From Verif Require Import Base BaseP Json JsonP Msg M_State S_State P_State M_Ctx M_Codec M_Authz M_ClientAuth M_Service M_Token M_Handler
  S_Service S_Token S_Handler S_Flow S_Trace S_Sched S_Route S_Multi P_Ctx P_Service P_Wire P_Token P_Handler P_Flow P_Trace P_Flow2 P_Route P_Multi
  M_Provider S_Provider P_Provider M_Registration S_Registration P_Registration M_WebFinger M_Setup S_Setup P_Setup T_Provider T_Registration T_Setup
  S_Traffic P_Traffic P_Traffic2 T_Traffic S_Dyn P_Dyn.

Lemma rnd32_nonempty k : rnd32 k -> k <> "".
Proof. apply (proj1 rnd32_family). Qed.
Lemma not_chosen_args W c cnf reqs p args : not_chosen cnf reqs p -> dget "request_args" (config c) = dget "request_args" cnf ->
  ~ In p ["redirect_uri"; "scope"; "response_type"; "nonce"] -> authz_request_args W c reqs = Ok args -> dget p args = None.
Proof.
  intros [N1 N2] E NI A. unfold authz_request_args in A.
  destruct (response_type_of c reqs) as [rt|]; [|discriminate]. cbn [rbind] in A.
  destruct (pick_redirect_uri c (Some reqs) (Some rt)) as [ru|]; [|discriminate]. cbn [rbind] in A.
  unfold dict_get in A. destruct (dget "scope" (behaviour c)) as [sc|]; [|discriminate]. cbn [rbind] in A. injection A as <-.
  assert (RV : forall d : dict val, dget p d = None -> dget p (rev d) = None).
  { intros d Hp. apply dget_None_In. intros C. apply dget_None_In in Hp. apply Hp. unfold dkeys in *. rewrite map_rev in C. now apply in_rev in C. }
  rewrite !dget_dupdate, (RV _ N1).
  assert (N3 : dget p (config_request_args c) = None).
  { unfold config_request_args. rewrite E. destruct (dget "request_args" cnf) as [[]|]; try reflexivity. now apply N2. }
  rewrite (RV _ N3). apply dget_None_In. exact NI.
Qed.

(** ** what the client knows of its provider stays *)
Definition keeps_provider (h h' : handler) : Prop :=
  forall i cl, dget i h = Some cl -> exists cl', dget i h' = Some cl' /\ provider_info (cl_ctx cl') = provider_info (cl_ctx cl).
Lemma keeps_provider_refl h : keeps_provider h h.
Proof. intros i cl D. eauto. Qed.
Lemma keeps_provider_trans a b c : keeps_provider a b -> keeps_provider b c -> keeps_provider a c.
Proof. intros X Y i cl D. destruct (X _ _ D) as (x & D1 & E1). destruct (Y _ _ D1) as (y & D2 & E2). exists y. split; congruence. Qed.
Lemma call_provider h o : sound h -> hcall_ok o -> keeps_provider h (run_hcall h o).
Proof.
  intros S Ho. destruct (hcall_at h o Ho) as [->|(j & c & -> & Hc & _)]; [apply keeps_provider_refl|].
  unfold at_client. destruct (dget j h) as [cl0|] eqn:D0; [|apply keeps_provider_refl]. intros i cl D.
  destruct (string_dec i j) as [E|NE].
  - rewrite E in *. assert (cl0 = cl) by congruence. exists (set_ctx (run_call cl0 c (cl_ctx cl0)) cl0). rewrite dget_dset_eq. split; [reflexivity|].
    pose proof (proj2 S _ _ D0) as SC. destruct (calls_write cl0 [c] (proj1 SC)) with (c := cl_ctx cl0) as [K _]; [now apply Forall_cons|exact (sound_closed _ _ SC)|].
    cbn [run_calls fold_left] in K. cbn [cl_ctx set_ctx]. rewrite K. cbn. congruence.
  - rewrite dget_dset_neq by congruence. eauto.
Qed.
Lemma setup_provider W H iss user beh s : harmless_setup W H iss user beh s ->
  keeps_provider (hs_rps s) (hs_rps (snd (client_setup W H iss user beh s))).
Proof.
  intros HH. unfold harmless_setup in HH. destruct (client_setup W H iss user beh s) as [r s'] eqn:E. cbn [snd].
  assert (AK : all_kept s s' -> keeps_provider (hs_rps s) (hs_rps s')).
  { intros [_ K] i cl D. destruct (K i _ D) as (cl' & D' & S). exists cl'. split; [exact D'|]. apply sbc_facts in S. tauto. }
  apply client_setup_outcome in E. destruct r as [j|e]; [|now apply AK].
  destruct E as [(E1 & E2 & E3 & _)|(E1 & E2 & cl & D & _)]; [now apply AK|].
  destruct HH as [HH|(HH1 & _)]; [exfalso; unfold dhas in E1; destruct (dget iss (hs_rps s)); [discriminate|contradiction]|].
  intros i x Dx. destruct (E2 i) as [K _]; [congruence|]. destruct (K _ Dx) as (x' & D' & S). exists x'. split; [exact D'|]. apply sbc_facts in S. tauto.
Qed.
Lemma step_provider s x : step_ok s x -> sound (hs_rps s) -> keeps_provider (hs_rps s) (hs_rps (run_step s x)).
Proof.
  intros O S. destruct x as [W H iss user reqs beh|W H iss user beh|o]; cbn [step_ok run_step] in *.
  - destruct O as (O1 & O2 & O3). rewrite begin_run. pose proof (setup_provider W H iss user _ s O3) as K.
    destruct (setup_step W H iss user _ s O2 O3 S) as [S1 _].
    destruct (client_setup W H iss user (match beh with Some b => b | None => [] end) s) as [[i|e] s1]; cbn [snd] in *; [|exact K].
    cbn [hs_rps with_rps]. eapply keeps_provider_trans; [exact K|]. now apply call_provider.
  - destruct O as (_ & O3). now apply setup_provider.
  - now apply call_provider.
Qed.
Lemma steps_provider xs : forall s, steps_ok s xs -> sound (hs_rps s) -> keeps_provider (hs_rps s) (hs_rps (run_steps s xs)).
Proof.
  induction xs as [|x r IH]; intros s O S; [apply keeps_provider_refl|]. destruct O as [O1 O2].
  eapply keeps_provider_trans; [apply (step_provider _ _ O1 S)|]. apply IH; [exact O2|]. now apply step_sound.
Qed.

(** C74: an application makes any steps [xs], begins a login at an issuer of which it knows
    nothing else, and makes any steps [ys] that do not begin that login again or clear it.
    Then there is metadata [m] that the issuer published under its well-known URL; the user
    was sent to the authorization endpoint in [m] with the state of the login and the
    identifier that the registration endpoint in [m] gave; the key of the login leads to the
    client for the issuer in [m]; and no call about the login makes a request to anything but
    the token endpoint and the UserInfo endpoint in [m]. *)
Theorem C74_first_login : forall s xs W H iss user reqs beh ys u k s1 cnf,
  no_clients s -> steps_ok s (xs ++ SBegin W H iss user reqs beh :: ys) -> (forall m v, e_hash W m v <> "") ->
  (forall c m m', e_vrf W "provider_info" c m = Ok m' -> exists j, dget "issuer" m' = Some (VStr j)) ->
  first_visit iss cnf (run_steps s xs) ->
  begin W H iss user reqs beh (run_steps s xs) = (Ok (u, k), s1) ->
  Forall (step_leaves k) xs -> Forall (step_leaves k) ys ->
  exists i m, published W iss m /\ dget "issuer" m = Some (VStr i) /\ k = e_state W /\
    (exists ep id, dget "authorization_endpoint" m = Some (VStr ep) /\ same_address u ep /\ identity W cnf m id /\
       (no_request_object beh -> M_Service.u_query (M_Service.urlsplit ep) = "" ->
          query_has u "state" k /\ (not_chosen cnf reqs "client_id" -> id <> "" -> query_has u "client_id" id))) /\
    let h := hs_rps (run_steps s1 ys) in
    client_of_session h k = Ok i /\
    (forall o http1 http2, concerns i k o = true -> agree_on (to_provider m) http1 http2 ->
       hanswer h (hcall_at_peer http1 o) = hanswer h (hcall_at_peer http2 o) /\
       run_hcall h (hcall_at_peer http1 o) = run_hcall h (hcall_at_peer http2 o)).
Proof.
  intros s xs W H iss user reqs beh ys u k s1 cnf N0 OK Hh Hv FV E Lx Ly.
  destruct (C09_pending_sessions_stay_reachable _ _ _ _ _ _ _ _ _ _ _ _ N0 OK Hh E Lx Ly) as (i & Ei & Ci & _).
  apply steps_ok_app in OK. destruct OK as [OKx OK]. cbn [steps_ok] in OK. destruct OK as [(RK & MP & HS) OKy].
  assert (S0 : sound (hs_rps s)) by (rewrite N0; split; [constructor|discriminate]).
  destruct (steps_sound xs s OKx S0) as [Sx _]. set (sx := run_steps s xs) in *.
  destruct (setup_step W H iss user (match beh with Some b => b | None => [] end) sx MP HS Sx) as [Ss _].
  assert (Es1 : run_step sx (SBegin W H iss user reqs beh) = s1) by (cbn [run_step]; now rewrite E).
  rewrite Es1 in OKy. unfold begin in E.
  destruct (client_setup W H iss user (match beh with Some b => b | None => [] end) sx) as [r s'] eqn:Es. cbn [fst] in Ei. subst r. cbn [snd] in Ss.
  destruct (new_provider W H iss user _ sx i s' cnf FV Hv Es) as (m & cl & P1 & P2 & P3 & P4 & P5 & P6 & P7).
  unfold on_client in E. rewrite P3 in E. destruct (init_authorization W cl reqs beh (cl_ctx cl)) as [[[u' k']|e] c'] eqn:I; [|discriminate].
  injection E as -> -> <-. destruct Ss as [ND Sc]. pose proof (Sc i cl P3) as (PC & _ & _ & _).
  destruct (init_spec_id rnd32 W cl reqs beh (cl_ctx cl) u k c' rnd32_family RK (proj1 PC) Hh I)
    as (Ek & args & req & ep & ID & A1 & A2 & A3 & A4 & B).
  destruct B as (B1 & _ & _ & _ & _ & _ & _ & _ & _ & _ & _ & B2 & _ & B3).
  rewrite P4 in A2. exists i, m. split; [exact P1|]. split; [exact P2|]. split; [exact Ek|]. split.
  - exists ep, (client_id (cl_ctx cl)). split; [exact A2|]. split; [exact A3|]. split; [exact P5|].
    intros NR Q. destruct (B3 NR Q) as [F _]. split.
    + apply F; [exact B1|]. rewrite Ek. apply rnd32_nonempty in RK. exact RK.
    + intros NC NE. apply F; [|exact NE]. apply ID; [|exact NE]. apply (not_chosen_args W _ cnf reqs _ _ NC P7) in A1; [exact A1|cbn; intuition discriminate].
  - cbv zeta. split; [exact Ci|]. intros o http1 http2 Co Ag. apply hcall_traffic. intros j clj Fj Dj.
    assert (j = i) as ->. { destruct (concerns_both _ _ _ Co) as [X|X]; rewrite X in Fj; congruence. }
    assert (S1 : sound (hs_rps (with_rps (dset i (set_ctx c' cl) (hs_rps s')) s'))).
    { destruct (step_sound sx (SBegin W H iss user reqs beh)) as [X _]; [now split|exact Sx|]. cbn [run_step] in X. unfold begin in X. rewrite Es in X.
      unfold on_client in X. rewrite P3, I in X. exact X. }
    destruct (steps_provider ys _ OKy S1 i (set_ctx c' cl)) as (cl2 & D2 & P8).
    { cbn [hs_rps with_rps]. apply dget_dset_eq. }
    assert (cl2 = clj) by congruence. subst cl2. cbn [cl_ctx set_ctx] in P8.
    assert (PI : provider_info (cl_ctx clj) = m). { rewrite P8, <- P4. rewrite B2. reflexivity. }
    intros uu mm bb hh [[-> X]|[-> (ep' & X1 & X2)]]; apply Ag; unfold has_published in *; rewrite PI in *; [left|right]; eauto.
Qed.
Print Assumptions C74_first_login.

(** The theorem's case is met: an application that knows nothing but the issuer. *)
Example ex_C74 : let s := su_state su_default in let iss := "https://op.example" in
  let cnf := dset "issuer" (VStr iss) su_default in
  no_clients s /\ steps_ok s [su_begin kA iss ""] /\ first_visit iss cnf s /\
  match begin (su_env kA) su_conf iss "" [] None s with
  | (Ok (u, k), s1) => k = kA /\ query_has u "state" kA /\ query_has u "client_id" "c1" /\ same_address u "https://op.example/a"
  | _ => False
  end.
Proof.
  cbn zeta. split; [reflexivity|]. split; [|split].
  - split; [|exact I]. split; [split; reflexivity|]. split; [exact su_plain|]. unfold harmless_setup.
    vm_compute. right. split; [reflexivity|]. split; [discriminate|]. intros cl E. injection E as <-. reflexivity.
  - split; [discriminate|]. split; [reflexivity|]. split; [split; [reflexivity|split; [reflexivity|split; reflexivity]]|].
    exists su_default. split; reflexivity.
  - vm_compute. repeat split.
Qed.
Example ex_C74_metadata : published (su_env kA) "https://op.example" (dset "status_code" (VInt 200) (op_pcr "https://op.example")).
Proof.
  exists "https://op.example/.well-known/openid-configuration", (mkresp 200 (Some "application/json") (json_dumps (VDict (op_pcr "https://op.example")))),
    empty_ctx, (op_pcr "https://op.example"), (op_pcr "https://op.example").
  split. { exists "https://op.example". split; [reflexivity|]. right. split; reflexivity. }
  split; [reflexivity|].
  split. { intros _ d m' E1 E2. vm_compute in E1. injection E1 as <-. vm_compute in E2. injection E2 as <-. reflexivity. }
  split; [reflexivity|]. split; [right; reflexivity|]. split; [reflexivity|]. eexists. split; [reflexivity|]. apply si_equal.
Qed.
