(** Proofs for T_Flask.v *)
From Verif Require Import Base BaseP Json JsonP Msg M_State S_State P_State M_Ctx M_Codec M_Authz M_ClientAuth
  M_Service M_Token M_Handler S_Service S_Token S_Handler S_Flow S_Trace S_Sched S_Route P_Ctx P_Authz P_Codec P_ClientAuth P_Service P_Wire P_Token
  P_Handler P_Flow P_Token2 P_Trace P_Flow2 P_Handler2 P_Route P_Sim P_SimK P_Sched P_Login S_Multi P_Multi M_Flask S_Flask.

(** ** one page *)
Lemma finalize_page_run W b op args a : 
  (get_rp a op = None /\ finalize_page W b op args a = (PStatus 400, a)) \/
  exists i cl, get_rp a op = Some i /\ dget i (ap_rph a) = Some cl /\
    dget "state" (ap_session (snd (finalize_page W b op args a)) b) = Some (state_arg args) /\
    (forall b', b' <> b -> ap_session (snd (finalize_page W b op args a)) b' = ap_session a b') /\
    ap_hash (snd (finalize_page W b op args a)) = ap_hash a /\
    ((ap_rph (snd (finalize_page W b op args a)) = ap_rph a /\ ~ welcomes (fst (finalize_page W b op args a))) \/
     exists s j, state_arg args = VStr s /\ get_iss (sdb (cl_ctx cl)) s = Ok (VStr j) /\ s <> "" /\
       ap_rph (snd (finalize_page W b op args a)) = snd (h_finalize W j args false (ap_rph a)) /\
       forall info tok idt, fst (finalize_page W b op args a) = PUser info tok idt ->
         exists st ss, fst (h_finalize W j args false (ap_rph a)) = Ok (FOk info st tok idt ss)).
Proof.
  unfold finalize_page. destruct (get_rp a op) as [i|] eqn:G; [|left; auto]. right.
  assert (Hd : exists cl, dget i (ap_rph a) = Some cl).
  { unfold get_rp in G. destruct op as [o|]; [|discriminate]. unfold dhas in G. destruct (dget o (ap_hash a)) as [iss|].
    - destruct (dget iss (ap_rph a)) eqn:E; [|discriminate]. injection G as <-. eauto.
    - destruct (dget o (ap_rph a)) eqn:E; [|discriminate]. injection G as <-. eauto. }
  destruct Hd as [cl Hd]. rewrite Hd. exists i, cl. split; [reflexivity|]. split; [exact Hd|]. cbn zeta. fold (state_arg args).
  assert (N : forall key v x, ap_session (note b key v x) b = dset key v (ap_session x b)).
  { intros. cbn. now rewrite Nat.eqb_refl. }
  assert (O : forall key v x b', b' <> b -> ap_session (note b key v x) b' = ap_session x b').
  { intros key v x b' Hb. cbn. destruct (Nat.eqb_spec b b'); [congruence|reflexivity]. }
  assert (R : forall key v x, ap_rph (note b key v x) = ap_rph x) by reflexivity.
  set (a2 := note b "state" (state_arg args) (note b "client_id" (VStr (client_id (cl_ctx cl))) a)).
  assert (A2 : dget "state" (ap_session a2 b) = Some (state_arg args)). { unfold a2. rewrite N. apply dget_dset_eq. }
  assert (B2 : forall b', b' <> b -> ap_session a2 b' = ap_session a b'). { intros b' Hb. unfold a2. now rewrite !O by exact Hb. }
  assert (C2 : ap_hash a2 = ap_hash a) by reflexivity. assert (D2 : ap_rph a2 = ap_rph a) by reflexivity.
  clearbody a2.
  destruct (truthy (state_arg args)) eqn:T; [|cbn [fst snd]; auto 10].
  destruct (state_arg args) as [| | |s| |] eqn:Sa; try (cbn [fst snd]; auto 10).
  destruct (get_iss (sdb (cl_ctx cl)) s) as [iv|e] eqn:Gi; [|cbn [fst snd]; auto 10].
  set (ss := match dget "session_state" args with Some v => v | None => VStr "" end).
  set (a3 := note b "session_state" ss a2).
  assert (A3 : dget "state" (ap_session a3 b) = Some (VStr s)).
  { unfold a3. rewrite N. rewrite dget_dset_neq by discriminate. exact A2. }
  assert (B3 : forall b', b' <> b -> ap_session a3 b' = ap_session a b'). { intros b' Hb. unfold a3. rewrite O by exact Hb. auto. }
  assert (C3 : ap_hash a3 = ap_hash a) by exact C2. assert (D3 : ap_rph a3 = ap_rph a) by exact D2.
  clearbody a3.
  destruct iv as [| | |j| |]; try (cbn [fst snd]; auto 10).
  rewrite D3. destruct (h_finalize W j args false (ap_rph a)) as [r h] eqn:F. cbn [fst snd].
  assert (K : s <> ""). { intros ->. discriminate T. }
  assert (X : forall p : page, (forall info tok idt, p = PUser info tok idt -> exists st ss, r = Ok (FOk info st tok idt ss)) ->
    dget "state" (ap_session (snd (p, with_rph h a3)) b) = Some (VStr s) /\
    (forall b', b' <> b -> ap_session (snd (p, with_rph h a3)) b' = ap_session a b') /\
    ap_hash (snd (p, with_rph h a3)) = ap_hash a /\
    (ap_rph (snd (p, with_rph h a3)) = ap_rph a /\ ~ welcomes (fst (p, with_rph h a3)) \/
    (exists s0 j0, VStr s = VStr s0 /\ get_iss (sdb (cl_ctx cl)) s0 = Ok (VStr j0) /\ s0 <> "" /\
      ap_rph (snd (p, with_rph h a3)) = snd (h_finalize W j0 args false (ap_rph a)) /\
      (forall info tok idt, fst (p, with_rph h a3) = PUser info tok idt -> exists st ss0, fst (h_finalize W j0 args false (ap_rph a)) = Ok (FOk info st tok idt ss0))))).
  { intros p Hp. cbn [fst snd]. split; [exact A3|]. split; [exact B3|]. split; [exact C3|]. right. exists s, j. rewrite F. cbn [fst snd]. auto 8. }
  pose proof (fun p Hp => X p Hp) as Y. clear X.
  destruct r as [[? ?|info st tok idt s2]|[]]; apply Y; try discriminate; intros info' tok' idt' E; injection E as <- <- <-; eauto.
Qed.

(** what a visit does to the handler *)
Lemma serve_handler a v : ap_rph (snd (serve a v)) = ap_rph a \/
  exists o, makes a v o /\ ap_rph (snd (serve a v)) = run_hcall (ap_rph a) o.
Proof.
  assert (CB : forall W b op args, callback v = Some (W, b, args) -> callback_client a v = get_rp a op -> serve a v = finalize_page W b op args a ->
    ap_rph (snd (serve a v)) = ap_rph a \/ exists o, makes a v o /\ ap_rph (snd (serve a v)) = run_hcall (ap_rph a) o).
  { intros W b op args C CC ->. destruct (finalize_page_run W b op args a) as [[_ ->]|(i & cl & G & D & _ & _ & _ & [[X _]|(s & j & _ & _ & _ & X & _)])]; auto.
    right. exists (HFinalize W j args false). split; [|exact X]. exists b. rewrite CC, G. split; [exact C|]. split; [discriminate|reflexivity]. }
  destruct v as [W b dyn static|W b url args|W b frag op|W b|b|b|url|vrf op data|op sid iss]; try (eapply CB; reflexivity); clear CB; cbn [serve].
  - change (if dyn =?s "" then static else dyn) with (chosen_op dyn static). destruct (chosen_op dyn static =?s "") eqn:E; [auto|]. right.
    exists (HInit W (chosen_op dyn static) rp_req_args None). split; [cbn; eauto 8|]. unfold run_hcall.
    change (ap_rph (note b "op_identifier" (VStr (chosen_op dyn static)) a)) with (ap_rph a).
    destruct (on_client (chosen_op dyn static) (fun cl => init_authorization W cl rp_req_args None) (ap_rph a)) as [[[u k]|e] h]; reflexivity.
  - destruct (dget "state" (ap_session a b)) as [[| | |st| |]|] eqn:E; auto. right. exists (HLogout W st ""). split; [cbn; eauto|].
    unfold run_hcall. destruct (h_logout W st "" (ap_rph a)) as [[x|e] h]; reflexivity.
  - destruct (dget "op_identifier" (ap_session a b)) as [[| | |op| |]|]; auto. destruct (get_rp a (Some op)); auto.
    destruct (dget op (ap_hash a)), (dget "client_id" (ap_session a b)), (dget "session_state" (ap_session a b)); auto.
  - destruct (dget "op_identifier" (ap_session a b)); auto.
  - destruct (get_rp a (op_by_cb_uri (splitquery url) (ap_rph a))) as [i|]; auto. destruct (dget i (ap_rph a)); auto.
  - destruct (get_rp a (Some op)) as [i|]; auto. destruct (dget i (ap_rph a)) as [cl|]; auto. destruct (backchannel_logout vrf data [] (cl_ctx cl)); auto.
  - destruct (get_rp a (Some op)) as [i|]; auto. destruct (dget i (ap_rph a)) as [cl|]; auto. destruct (iss =?s issuer (cl_ctx cl)); auto.
Qed.

(** what a visit does to the sessions of the browsers *)
Lemma serve_hash a v : ap_hash (snd (serve a v)) = ap_hash a.
Proof.
  assert (CB : forall W b op args, ap_hash (snd (finalize_page W b op args a)) = ap_hash a).
  { intros W b op args. destruct (finalize_page_run W b op args a) as [[_ ->]|(i & cl & _ & _ & _ & _ & X & _)]; auto. }
  destruct v as [W b dyn static|W b url args|W b frag op|W b|b|b|url|vrf op data|op sid iss]; try apply CB; clear CB; cbn [serve].
  - change (if dyn =?s "" then static else dyn) with (chosen_op dyn static). destruct (chosen_op dyn static =?s "") eqn:E; [auto|].
    destruct (on_client (chosen_op dyn static) (fun cl => init_authorization W cl rp_req_args None) (ap_rph (note b "op_identifier" (VStr (chosen_op dyn static)) a))) as [[[u k]|e] h]; reflexivity.
  - destruct (dget "state" (ap_session a b)) as [[| | |st| |]|] eqn:E; auto. destruct (h_logout W st "" (ap_rph a)) as [[x|e] h]; reflexivity.
  - destruct (dget "op_identifier" (ap_session a b)) as [[| | |op| |]|]; auto. destruct (get_rp a (Some op)); auto.
    destruct (dget op (ap_hash a)), (dget "client_id" (ap_session a b)), (dget "session_state" (ap_session a b)); auto.
  - destruct (dget "op_identifier" (ap_session a b)); auto.
  - destruct (get_rp a (op_by_cb_uri (splitquery url) (ap_rph a))) as [i|]; auto. destruct (dget i (ap_rph a)); auto.
  - destruct (get_rp a (Some op)) as [i|]; auto. destruct (dget i (ap_rph a)) as [cl|]; auto. destruct (backchannel_logout vrf data [] (cl_ctx cl)); auto.
  - destruct (get_rp a (Some op)) as [i|]; auto. destruct (dget i (ap_rph a)) as [cl|]; auto. destruct (iss =?s issuer (cl_ctx cl)); auto.
Qed.
Lemma serve_session a v b : browser v <> Some b -> ap_session (snd (serve a v)) b = ap_session a b.
Proof.
  intros NB.
  assert (CB : forall W b' op args, b <> b' -> ap_session (snd (finalize_page W b' op args a)) b = ap_session a b).
  { intros W b' op args Hb. destruct (finalize_page_run W b' op args a) as [[_ ->]|(i & cl & _ & _ & _ & X & _)]; auto. }
  destruct v as [W b' dyn static|W b' url args|W b' frag op|W b'|b'|b'|url|vrf op data|op sid iss]; cbn [browser] in NB; try (apply CB; congruence); clear CB; cbn [serve].
  - assert (B : b' <> b) by congruence.
    change (if dyn =?s "" then static else dyn) with (chosen_op dyn static). destruct (chosen_op dyn static =?s "") eqn:E; [auto|].
    destruct (on_client (chosen_op dyn static) (fun cl => init_authorization W cl rp_req_args None) (ap_rph (note b' "op_identifier" (VStr (chosen_op dyn static)) a))) as [[[u k]|e] h];
      cbn; destruct (Nat.eqb_spec b' b); congruence.
  - destruct (dget "state" (ap_session a b')) as [[| | |st| |]|] eqn:E; auto. destruct (h_logout W st "" (ap_rph a)) as [[x|e] h]; reflexivity.
  - destruct (dget "op_identifier" (ap_session a b')) as [[| | |op| |]|]; auto. destruct (get_rp a (Some op)); auto.
    destruct (dget op (ap_hash a)), (dget "client_id" (ap_session a b')), (dget "session_state" (ap_session a b')); auto.
  - destruct (dget "op_identifier" (ap_session a b')); auto.
  - destruct (get_rp a (op_by_cb_uri (splitquery url) (ap_rph a))) as [i|]; auto. destruct (dget i (ap_rph a)); auto.
  - destruct (get_rp a (Some op)) as [i|]; auto. destruct (dget i (ap_rph a)) as [cl|]; auto. destruct (backchannel_logout vrf data [] (cl_ctx cl)); auto.
  - destruct (get_rp a (Some op)) as [i|]; auto. destruct (dget i (ap_rph a)) as [cl|]; auto. destruct (iss =?s issuer (cl_ctx cl)); auto.
Qed.
(** the state in the session of a browser changes by the callbacks only *)
Lemma serve_state a v b : dget "state" (ap_session (snd (serve a v)) b) =
  match brought a b v with Some x => Some x | None => dget "state" (ap_session a b) end.
Proof.
  assert (CB : forall W b' op args, callback v = Some (W, b', args) -> callback_client a v = get_rp a op -> serve a v = finalize_page W b' op args a ->
    dget "state" (ap_session (snd (serve a v)) b) = match brought a b v with Some x => Some x | None => dget "state" (ap_session a b) end).
  { intros W b' op args C CC ->. unfold brought. rewrite C, CC.
    destruct (finalize_page_run W b' op args a) as [[G ->]|(i & cl & G & D & X1 & X2 & _)]; rewrite G; [reflexivity|].
    destruct (Nat.eqb_spec b b') as [->|N]; [exact X1|]. now rewrite X2. }
  destruct v as [W b' dyn static|W b' url args|W b' frag op|W b'|b'|b'|url|vrf op data|op sid iss]; try (eapply CB; reflexivity); clear CB;
    unfold brought; cbn [callback].
  - cbn [serve]. change (if dyn =?s "" then static else dyn) with (chosen_op dyn static). destruct (chosen_op dyn static =?s "") eqn:E; [auto|].
    assert (X : forall p h, dget "state" (ap_session (snd (p : page, with_rph h (note b' "op_identifier" (VStr (chosen_op dyn static)) a))) b) = dget "state" (ap_session a b)).
    { intros p h. cbn. destruct (Nat.eqb b' b); [apply dget_dset_neq; discriminate|reflexivity]. }
    destruct (on_client (chosen_op dyn static) (fun cl => init_authorization W cl rp_req_args None) (ap_rph (note b' "op_identifier" (VStr (chosen_op dyn static)) a))) as [[[u k]|e] h]; apply X.
  - cbn [serve]. destruct (dget "state" (ap_session a b')) as [[| | |st| |]|] eqn:E; auto. destruct (h_logout W st "" (ap_rph a)) as [[x|e] h]; reflexivity.
  - cbn [serve]. destruct (dget "op_identifier" (ap_session a b')) as [[| | |op| |]|]; auto. destruct (get_rp a (Some op)); auto.
    destruct (dget op (ap_hash a)), (dget "client_id" (ap_session a b')), (dget "session_state" (ap_session a b')); auto.
  - cbn [serve]. destruct (dget "op_identifier" (ap_session a b')); auto.
  - cbn [serve]. destruct (get_rp a (op_by_cb_uri (splitquery url) (ap_rph a))) as [i|]; auto. destruct (dget i (ap_rph a)); auto.
  - cbn [serve]. destruct (get_rp a (Some op)) as [i|]; auto. destruct (dget i (ap_rph a)) as [cl|]; auto. destruct (backchannel_logout vrf data [] (cl_ctx cl)); auto.
  - cbn [serve]. destruct (get_rp a (Some op)) as [i|]; auto. destruct (dget i (ap_rph a)) as [cl|]; auto. destruct (iss =?s issuer (cl_ctx cl)); auto.
Qed.

(** ** any visits *)
Lemma serve_all_snoc a vs v : serve_all a (vs ++ [v]) = snd (serve (serve_all a vs) v).
Proof. unfold serve_all. now rewrite fold_left_app. Qed.

(** a session key that leads to a client is one of the library's *)
Lemma routed_key h0 os st i : fresh_handler h0 -> Forall hcall_ok os -> client_of_session (run_hcalls h0 os) st = Ok i -> rnd32 st.
Proof.
  intros F OK H. destruct (client_of_session_sound _ _ _ H) as (_ & j & cl & I & G).
  destruct (hcalls_traced os h0 OK) as (tr & [R1 R2] & T2 & T3).
  assert (D : dget j (run_hcalls h0 os) = Some cl). { apply In_dget_NoDup; [rewrite R1; apply F|exact I]. }
  rewrite R2 in D. destruct (dget j h0) as [cl0|] eqn:E; [|discriminate]. injection D as <-. cbn [cl_ctx set_ctx] in G.
  destruct F as [F1 F2]. destruct (F2 _ _ E) as (P1 & P2 & P3 & P4).
  destruct (session_provenance cl0 (tr j) (cl_ctx cl0) st _ P1 (T2 j) P2 G) as (_ & W & reqs & beh & J & <-).
  pose proof (proj1 (Forall_forall _ _) (T2 j) _ J) as X. exact X.
Qed.
Lemma serve_hcall a v : visit_ok v -> forall h0 os, fresh_handler h0 -> Forall hcall_ok os -> ap_rph a = run_hcalls h0 os ->
  ap_rph (snd (serve a v)) = ap_rph a \/ exists o, makes a v o /\ hcall_ok o /\ ap_rph (snd (serve a v)) = run_hcall (ap_rph a) o.
Proof.
  intros Vk h0 os F OK E. destruct (serve_handler a v) as [X|(o & M & X)]; [auto|].
  destruct o as [W i reqs beh|W i resp collect| | | | |W st uri| |]; try contradiction M.
  - right. exists (HInit W i reqs beh). destruct M as (b & dyn & static & -> & M). split; [cbn; eauto|]. split; [exact Vk|exact X].
  - right. exists (HFinalize W i resp collect). split; [exact M|]. split; [exact I|exact X].
  - cbn [run_hcall] in X. destruct (client_of_session (ap_rph a) st) as [i|e] eqn:C.
    + right. exists (HLogout W st uri). split; [exact M|]. split; [|exact X]. cbn. rewrite E in C. eapply routed_key; eauto.
    + left. unfold h_logout, on_session in X. rewrite C in X. exact X.
Qed.
Lemma app_history a vs : fresh_app a -> Forall visit_ok vs ->
  exists os, Forall hcall_ok os /\ ap_rph (serve_all a vs) = run_hcalls (ap_rph a) os /\
    forall o, In o os -> exists vs1 v vs2, vs = vs1 ++ v :: vs2 /\ makes (serve_all a vs1) v o.
Proof.
  intros [F _]. induction vs as [|v vs IH] using rev_ind; intros OK.
  - exists []. split; [constructor|]. split; [reflexivity|contradiction].
  - apply Forall_app in OK. destruct OK as [O1 O2]. inversion O2 as [|? ? Vk _]; subst. destruct (IH O1) as (os & H1 & H2 & H3).
    assert (H3' : forall o, In o os -> exists vs1 v0 vs2, vs ++ [v] = vs1 ++ v0 :: vs2 /\ makes (serve_all a vs1) v0 o).
    { intros o I. destruct (H3 _ I) as (v1 & v0 & v2 & -> & M). exists v1, v0, (v2 ++ [v]). split; [now rewrite <- app_assoc|exact M]. }
    rewrite serve_all_snoc. destruct (serve_hcall (serve_all a vs) v Vk _ os F H1 H2) as [->|(o & M & Ho & ->)].
    + exists os. auto.
    + exists (os ++ [o]). split; [apply Forall_app; auto|]. split.
      { unfold run_hcalls. rewrite fold_left_app. cbn [fold_left]. fold (run_hcalls (ap_rph a) os). now rewrite H2. }
      intros o' I. apply in_app_or in I. destruct I as [I|[<-|[]]]; [auto|]. exists vs, v, []. auto.
Qed.

(** the clients are the same at any time, and their callbacks *)
Lemma reached_redirects h0 os i : fresh_handler h0 -> Forall hcall_ok os ->
  option_map (fun cl => redirect_uris (cl_ctx cl)) (dget i (run_hcalls h0 os)) = option_map (fun cl => redirect_uris (cl_ctx cl)) (dget i h0).
Proof.
  intros [F1 F2] OK. destruct (hcalls_traced os h0 OK) as (tr & [R1 R2] & T2 & T3). rewrite R2.
  destruct (dget i h0) as [cl0|] eqn:E; [|reflexivity]. cbn. destruct (F2 _ _ E) as (P1 & P2 & P3 & P4). f_equal.
  assert (C : closed rnd32 (sdb (cl_ctx cl0))). { rewrite P2. intros q t. discriminate. }
  destruct (calls_write cl0 (tr i) P1 (T2 i) (cl_ctx cl0) C) as [-> _]. reflexivity.
Qed.
Lemma op_by_cb_uri_ext uri : forall h1 h2 : handler, NoDup (dkeys h1) -> dkeys h1 = dkeys h2 ->
  (forall i, option_map (fun cl => redirect_uris (cl_ctx cl)) (dget i h1) = option_map (fun cl => redirect_uris (cl_ctx cl)) (dget i h2)) ->
  op_by_cb_uri uri h1 = op_by_cb_uri uri h2.
Proof.
  induction h1 as [|[k c1] h1 IH]; intros [|[k2 c2] h2] N K R; try discriminate; [reflexivity|].
  unfold dkeys in K, N. cbn [map fst] in K, N. injection K as <- K. inversion N as [|? ? N1 N2]; subst. cbn [op_by_cb_uri].
  assert (E : redirect_uris (cl_ctx c1) = redirect_uris (cl_ctx c2)).
  { specialize (R k). cbn [dget] in R. rewrite eqb_refl in R. cbn in R. congruence. }
  rewrite E. destruct (mem_str uri (redirect_uris (cl_ctx c2))); [reflexivity|]. apply IH; auto.
  intros i. specialize (R i). cbn [dget] in R. destruct (String.eqb_spec k i) as [E0|E0]; [rewrite <- E0; clear R|exact R].
  assert (X : forall h : handler, ~ In k (map fst h) -> dget k h = None).
  { intros h Hn. destruct (dget k h) eqn:D; [|reflexivity]. exfalso. apply Hn. apply dget_In in D. apply in_map_iff. eexists. split; [|exact D]. reflexivity. }
  rewrite (X h1 N1), (X h2); [reflexivity|]. now rewrite <- K.
Qed.
Lemma same_clients a vs v : fresh_app a -> Forall visit_ok vs -> callback_client (serve_all a vs) v = callback_client a v.
Proof.
  intros F OK. destruct (app_history a vs F OK) as (os & H1 & H2 & _).
  assert (Hh : ap_hash (serve_all a vs) = ap_hash a).
  { clear. induction vs as [|v vs IH] using rev_ind; [reflexivity|]. rewrite serve_all_snoc, serve_hash. exact IH. }
  assert (K : dkeys (ap_rph (serve_all a vs)) = dkeys (ap_rph a)). { rewrite H2. now apply hcalls_keys. }
  assert (R : forall op, get_rp (serve_all a vs) op = get_rp a op).
  { intros [o|]; [|reflexivity]. unfold get_rp. rewrite Hh.
    assert (X : forall j, dhas j (ap_rph (serve_all a vs)) = dhas j (ap_rph a)).
    { intros j. pose proof (reached_redirects (ap_rph a) os j (proj1 F) H1) as Y. rewrite <- H2 in Y. unfold dhas.
      destruct (dget j (ap_rph (serve_all a vs))), (dget j (ap_rph a)); cbn in Y; congruence. }
    destruct (dget o (ap_hash a)); now rewrite X. }
  destruct v; cbn [callback_client]; try reflexivity; rewrite R; [|reflexivity]. f_equal.
  apply op_by_cb_uri_ext; [rewrite K; apply F|exact K|]. intros i. rewrite H2. apply reached_redirects; [apply F|exact H1].
Qed.
Lemma session_state a vs b : fresh_app a -> Forall visit_ok vs ->
  dget "state" (ap_session (serve_all a vs) b) = last_brought a b vs.
Proof.
  intros F. induction vs as [|v vs IH] using rev_ind; intros OK.
  - cbn. now rewrite (proj2 F).
  - apply Forall_app in OK. destruct OK as [O1 _]. rewrite serve_all_snoc, serve_state, (IH O1).
    assert (B : brought (serve_all a vs) b v = brought a b v). { unfold brought. now rewrite (same_clients a vs v F O1). }
    rewrite B. clear. induction vs as [|w vs IH]; cbn; [destruct (brought a b v); reflexivity|].
    rewrite <- IH. destruct (brought a b v); [reflexivity|]. destruct (last_brought a b vs); reflexivity.
Qed.

(** ** the page of the user *)
Lemma callback_serve a v W b args : callback v = Some (W, b, args) ->
  exists op, callback_client a v = get_rp a op /\ serve a v = finalize_page W b op args a.
Proof. destruct v; try discriminate; intros H; injection H as <- <- <-; cbn [serve callback_client]; eauto. Qed.
Lemma only_callbacks_welcome a v : welcomes (fst (serve a v)) -> exists W b args, callback v = Some (W, b, args).
Proof.
  destruct v as [W b dyn static|W b url args|W b frag op|W b|b|b|url|vrf op data|op sid iss]; try (cbn [callback]; eauto; fail); intros H; exfalso; revert H; cbn [serve].
  - change (if dyn =?s "" then static else dyn) with (chosen_op dyn static). destruct (chosen_op dyn static =?s "") eqn:E; [auto|].
    destruct (on_client (chosen_op dyn static) (fun cl => init_authorization W cl rp_req_args None) (ap_rph (note b "op_identifier" (VStr (chosen_op dyn static)) a))) as [[[u k]|e] h]; auto.
  - destruct (dget "state" (ap_session a b)) as [[| | |st| |]|] eqn:E; auto. destruct (h_logout W st "" (ap_rph a)) as [[x|e] h]; auto.
  - destruct (dget "op_identifier" (ap_session a b)) as [[| | |op| |]|]; auto. destruct (get_rp a (Some op)); auto.
    destruct (dget op (ap_hash a)), (dget "client_id" (ap_session a b)), (dget "session_state" (ap_session a b)); auto.
  - destruct (dget "op_identifier" (ap_session a b)); auto.
  - destruct (get_rp a (op_by_cb_uri (splitquery url) (ap_rph a))) as [i|]; auto. destruct (dget i (ap_rph a)); auto.
  - destruct (get_rp a (Some op)) as [i|]; auto. destruct (dget i (ap_rph a)) as [cl|]; auto. destruct (backchannel_logout vrf data [] (cl_ctx cl)); auto.
  - destruct (get_rp a (Some op)) as [i|]; auto. destruct (dget i (ap_rph a)) as [cl|]; auto. destruct (iss =?s issuer (cl_ctx cl)); auto.
Qed.
(** a key with a session: who began it *)
Lemma begun_by_visit a vs i cl s v0 : fresh_app a -> Forall visit_ok vs -> dget i (ap_rph (serve_all a vs)) = Some cl ->
  get_iss (sdb (cl_ctx cl)) s = Ok v0 -> v0 = VStr i /\ exists v, In v vs /\ begins_login s i v.
Proof.
  intros F OK D G. destruct (app_history a vs F OK) as (os & H1 & H2 & H3). rewrite H2 in D.
  assert (RK : rnd32 s).
  { destruct (hcalls_traced os (ap_rph a) H1) as (tr & [R1 R2] & T2 & T3). rewrite R2 in D.
    destruct (dget i (ap_rph a)) as [cl0|] eqn:E; [|discriminate]. injection D as <-. cbn [cl_ctx set_ctx] in G.
    destruct F as [[F1 F2] _]. destruct (F2 _ _ E) as (P1 & P2 & P3 & P4).
    destruct (session_provenance cl0 (tr i) (cl_ctx cl0) s _ P1 (T2 i) P2 G) as (_ & W & reqs & beh & J & <-).
    exact (proj1 (Forall_forall _ _) (T2 i) _ J). }
  destruct (client_iss (ap_rph a) os i cl s (proj1 F) H1 RK D) as [(X & W & reqs & beh & I & S)|[e X]]; [|congruence].
  split; [congruence|]. destruct (H3 _ I) as (v1 & v & v2 & -> & b & dyn & static & -> & -> & _).
  exists (VRp W b dyn static). split; [apply in_or_app; right; now left|]. exists W, b, dyn, static. auto.
Qed.
Lemma user_page a vs v info tok idt a' : fresh_app a -> Forall visit_ok vs ->
  serve (serve_all a vs) v = (PUser info tok idt, a') ->
  exists W b args s i st ss, callback v = Some (W, b, args) /\ dget "state" args = Some (VStr s) /\
    callback_client a v = Some i /\ (exists v0, In v0 vs /\ begins_login s i v0) /\
    h_finalize W i args false (ap_rph (serve_all a vs)) = (Ok (FOk info st tok idt ss), ap_rph a') /\
    (tame W -> uniq args -> st = VStr s) /\ dget "state" (ap_session a' b) = Some (VStr s).
Proof.
  intros F OK E. destruct (only_callbacks_welcome (serve_all a vs) v) as (W & b & args & C); [rewrite E; exact I|].
  destruct (callback_serve (serve_all a vs) v W b args C) as (op & CC & S). rewrite S in E.
  assert (CA : callback_client a v = get_rp (serve_all a vs) op). { now rewrite <- CC, same_clients. }
  destruct (finalize_page_run W b op args (serve_all a vs)) as [[_ X]|(i & cl & G & D & X1 & _ & _ & [[_ X]|(s & j & Sa & Gi & NE & X2 & X3)])].
  { rewrite E in X. discriminate. } { rewrite E in X. exfalso. apply X. exact I. }
  destruct (begun_by_visit a vs i cl s _ F OK D Gi) as [Y B]. injection Y as ->. rewrite E in X1, X2, X3. cbn [fst snd] in X1, X2, X3.
  destruct (X3 info tok idt eq_refl) as (st & ss & X4).
  assert (Sd : dget "state" args = Some (VStr s)). { unfold state_arg in Sa. destruct (dget "state" args); congruence. }
  exists W, b, args, s, i, st, ss. split; [exact C|]. split; [exact Sd|]. split; [now rewrite CA|]. split; [exact B|].
  split. { destruct (h_finalize W i args false (ap_rph (serve_all a vs))) as [r h]. cbn [fst snd] in X2, X4. congruence. }
  split; [|rewrite X1, Sa; reflexivity].
  intros T U. unfold h_finalize, on_client in X4. rewrite D in X4.
  destruct (finalize W cl i args false (cl_ctx cl)) as [r c'] eqn:Fi. cbn [fst] in X4. subst r.
  destruct (finalize_state _ _ _ _ _ _ _ _ _ _ _ _ Fi) as (ar & c1 & k & t & c2 & A1 & A2 & A3 & -> & _).
  pose proof (state_of_final _ _ _ _ _ _ _ T A1 A3) as Q. unfold state_of in Q. destruct (msg_new cAuthzResponse args) as [m|] eqn:M; [|discriminate].
  rewrite (msg_new_get' cAuthzResponse args m "state" s eq_refl U M eq_refl Sd NE) in Q. congruence.
Qed.
(** a state that was not begun with the client gets nowhere *)
Lemma unknown_state a vs v W b args : fresh_app a -> Forall visit_ok vs -> callback v = Some (W, b, args) ->
  (forall s i v0, dget "state" args = Some (VStr s) -> callback_client a v = Some i -> In v0 vs -> ~ begins_login s i v0) ->
  ap_rph (snd (serve (serve_all a vs) v)) = ap_rph (serve_all a vs) /\ ~ welcomes (fst (serve (serve_all a vs) v)).
Proof.
  intros F OK C N. destruct (callback_serve (serve_all a vs) v W b args C) as (op & CC & ->).
  assert (CA : callback_client a v = get_rp (serve_all a vs) op). { now rewrite <- CC, same_clients. }
  destruct (finalize_page_run W b op args (serve_all a vs)) as [[_ ->]|(i & cl & G & D & X1 & _ & _ & [X|(s & j & Sa & Gi & NE & X2 & X3)])]; auto.
  exfalso. destruct (begun_by_visit a vs i cl s _ F OK D Gi) as [Y (v0 & I0 & B)].
  assert (Sd : dget "state" args = Some (VStr s)). { unfold state_arg in Sa. destruct (dget "state" args); congruence. }
  eapply N; eauto. now rewrite CA.
Qed.

(** ** which client a callback is for *)
Lemma splitquery_base base q : char_in "?"%char q = false -> splitquery (base ++ "?" ++ q) = base.
Proof.
  intros H. unfold splitquery. change (base ++ "?" ++ q)%string with (base ++ String "?" q)%string. rewrite split_on_app2, (split_on_nosep _ q H), rev_app_distr. cbn [rev List.app].
  pose proof (split_on_nonnil "?"%char base) as N. destruct (rev (split_on "?"%char base)) as [|x r] eqn:E.
  { exfalso. apply N. apply (f_equal (@rev string)) in E. rewrite rev_involutive in E. exact E. }
  assert (X : rev (x :: r) = split_on "?"%char base) by (rewrite <- E; apply rev_involutive). cbn [rev] in X. rewrite X. apply (join_split "?"%char).
Qed.
Lemma op_by_cb_uri_sound uri h k : op_by_cb_uri uri h = Some k -> exists cl, In (k, cl) h /\ In uri (redirect_uris (cl_ctx cl)).
Proof.
  induction h as [|[k' c] h IH]; cbn [op_by_cb_uri]; [discriminate|]. destruct (mem_str uri (redirect_uris (cl_ctx c))) eqn:M.
  - intros H. injection H as ->. exists c. split; [now left|]. now apply BaseP.mem_str_In.
  - intros H. destruct (IH H) as (cl & I & J). exists cl. split; [now right|exact J].
Qed.
Lemma op_by_cb_uri_complete uri h cl k : In (k, cl) h -> In uri (redirect_uris (cl_ctx cl)) -> exists k', op_by_cb_uri uri h = Some k'.
Proof.
  induction h as [|[k' c] h IH]; intros I J; [contradiction|]. cbn [op_by_cb_uri]. destruct (mem_str uri (redirect_uris (cl_ctx c))) eqn:M; [eauto|].
  destruct I as [I|I]; [|eauto]. injection I as -> ->. apply BaseP.mem_str_In in J. congruence.
Qed.
Lemma callback_by_address a W b base query args i cl :
  NoDup (dkeys (ap_rph a)) -> dget i (ap_rph a) = Some cl -> In base (redirect_uris (cl_ctx cl)) ->
  (forall j cl', dget j (ap_rph a) = Some cl' -> In base (redirect_uris (cl_ctx cl')) -> j = i) ->
  dget i (ap_hash a) = None -> char_in "?"%char query = false ->
  callback_client a (VAuthzCb W b (base ++ "?" ++ query)%string args) = Some i.
Proof.
  intros N D I U H Q. cbn [callback_client]. rewrite splitquery_base by exact Q.
  destruct (op_by_cb_uri_complete base (ap_rph a) cl i (dget_In _ _ _ D) I) as [k K]. rewrite K.
  destruct (op_by_cb_uri_sound _ _ _ K) as (c' & J1 & J2). assert (k = i) by (eapply U; [now apply In_dget_NoDup; [|exact J1]|exact J2]). rewrite H0.
  unfold get_rp, dhas. rewrite H, D. reflexivity.
Qed.
Lemma callback_client_address a W b url args i : NoDup (dkeys (ap_rph a)) ->
  callback_client a (VAuthzCb W b url args) = Some i ->
  exists k cl, dget k (ap_rph a) = Some cl /\ In (splitquery url) (redirect_uris (cl_ctx cl)) /\
    (i = k \/ dget k (ap_hash a) = Some i).
Proof.
  intros N H. cbn [callback_client] in H. destruct (op_by_cb_uri (splitquery url) (ap_rph a)) as [k|] eqn:K; [|discriminate].
  destruct (op_by_cb_uri_sound _ _ _ K) as (cl & J1 & J2). exists k, cl. split; [now apply In_dget_NoDup|]. split; [exact J2|].
  unfold get_rp in H. destruct (dget k (ap_hash a)) as [iss|].
  - destruct (dhas iss (ap_rph a)); [|discriminate]. right. congruence.
  - destruct (dhas k (ap_rph a)); [|discriminate]. left. congruence.
Qed.
Lemma fragment_arguments W b fragment op p :
  exists args, callback (VRepostFragment W b fragment op) = Some (W, b, args) /\
  match map snd (filter (fun kv => fst kv =?s p) (parse_qsl fragment)) with
  | [] => dget p args = None
  | [v] => dget p args = Some (VStr v)
  | vs => dget p args = Some (VList (map VStr vs))
  end.
Proof.
  eexists. split; [reflexivity|]. pose proof (parse_qs_values p fragment) as H. unfold values_of in H.
  assert (G : dget p (compact (parse_qs fragment)) = match dget p (parse_qs fragment) with
    | Some [v] => Some (VStr v) | Some l => Some (VList (map VStr l)) | None => None end).
  { generalize (parse_qs fragment). intros d. unfold compact. clear. induction d as [|[k l] d IH]; [reflexivity|]. cbn [map dget fst snd].
    destruct (k =?s p); [|exact IH]. destruct l as [|v [|w l]]; reflexivity. }
  rewrite G, H. destruct (map snd (filter (fun kv => fst kv =?s p) (parse_qsl fragment))) as [|v [|w l]]; reflexivity.
Qed.
