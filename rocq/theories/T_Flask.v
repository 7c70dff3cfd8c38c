(** Property theorem C72: the pages of the example application.
    Proofs in P_Flask.v, specification in S_Flask.v. *)
From Verif Require Import Base BaseP Json Msg M_State S_State M_Ctx M_Codec M_Authz M_ClientAuth M_Service M_Token M_Handler M_Verify
  S_Token S_Flow S_Trace S_Sched S_Route M_Flask S_Flask P_State P_Ctx P_Trace P_Sched P_Route P_Flask Ex T_Verify T_Logout T_Handler T_Sched T_Multi.

(** C72: whatever visits are made by whatever browsers, the handler of the application has been
    through calls of its API only, with library made keys, and each of them was made by one of
    the visits: begin by the first page, finalize by a callback, logout by the logout page for
    the session of the browser.  So what holds for any calls on a handler holds here. *)
Theorem C72_pages_only_call_the_handler : forall a vs, fresh_app a -> Forall visit_ok vs ->
  exists os, Forall hcall_ok os /\ ap_rph (serve_all a vs) = run_hcalls (ap_rph a) os /\
    forall o, In o os -> exists vs1 v vs2, vs = vs1 ++ v :: vs2 /\ makes (serve_all a vs1) v o.
Proof. exact app_history. Qed.
Print Assumptions C72_pages_only_call_the_handler.

(** C72: a visit makes at most one call on the handler. *)
Theorem C72_one_call_per_visit : forall a v, ap_rph (snd (serve a v)) = ap_rph a \/
  exists o, makes a v o /\ ap_rph (snd (serve a v)) = run_hcall (ap_rph a) o.
Proof. exact serve_handler. Qed.
Print Assumptions C72_one_call_per_visit.

(** C72: the page with a user is shown for a callback only; its state was begun by an earlier
    visit to the first page, for the provider the callback belongs to; what is shown is what
    finalize answers for the callback; and the session of the browser has that state. *)
Theorem C72_user_page : forall a vs v info tok idt a', fresh_app a -> Forall visit_ok vs ->
  serve (serve_all a vs) v = (PUser info tok idt, a') ->
  exists W b args s i st ss, callback v = Some (W, b, args) /\ dget "state" args = Some (VStr s) /\
    callback_client a v = Some i /\ (exists v0, In v0 vs /\ begins_login s i v0) /\
    h_finalize W i args false (ap_rph (serve_all a vs)) = (Ok (FOk info st tok idt ss), ap_rph a') /\
    (tame W -> uniq args -> st = VStr s) /\ dget "state" (ap_session a' b) = Some (VStr s).
Proof. exact user_page. Qed.
Print Assumptions C72_user_page.

(** C72: a callback with a state that no visit has begun with its provider changes nothing in
    the handler and shows no user. *)
Theorem C72_unknown_state : forall a vs v W b args, fresh_app a -> Forall visit_ok vs -> callback v = Some (W, b, args) ->
  (forall s i v0, dget "state" args = Some (VStr s) -> callback_client a v = Some i -> In v0 vs -> ~ begins_login s i v0) ->
  ap_rph (snd (serve (serve_all a vs) v)) = ap_rph (serve_all a vs) /\ ~ welcomes (fst (serve (serve_all a vs) v)).
Proof. exact unknown_state. Qed.
Print Assumptions C72_unknown_state.

(** C72: a visit of one browser does not change the session of another. *)
Theorem C72_browsers_do_not_interfere : forall a v b, browser v <> Some b -> ap_session (snd (serve a v)) b = ap_session a b.
Proof. exact serve_session. Qed.
Print Assumptions C72_browsers_do_not_interfere.

(** C72: the state in the session of a browser is that of the last callback it made for a known
    client. *)
Theorem C72_state_of_the_browser : forall a vs b, fresh_app a -> Forall visit_ok vs ->
  dget "state" (ap_session (serve_all a vs) b) = last_brought a b vs.
Proof. exact session_state. Qed.
Print Assumptions C72_state_of_the_browser.

(** C72: the logout page sends the browser to the logout of the login it brought back last, at
    the provider where that login was begun. *)
Theorem C72_logout : forall a vs W b url a', fresh_app a -> Forall visit_ok vs ->
  serve (serve_all a vs) (VLogout W b) = (PRedirect url, a') ->
  exists s i inf, last_brought a b vs = Some (VStr s) /\ (exists v0, In v0 vs /\ begins_login s i v0) /\
    client_of_session (ap_rph (serve_all a vs)) s = Ok i /\
    h_logout W s "" (ap_rph (serve_all a vs)) = (Ok inf, ap_rph a') /\ i_url inf = url.
Proof.
  intros a vs W b url a' F OK H. cbn [serve] in H. rewrite (session_state a vs b F OK) in H.
  destruct (last_brought a b vs) as [[| | |s| |]|]; try discriminate.
  destruct (h_logout W s "" (ap_rph (serve_all a vs))) as [[inf|e] h] eqn:L; [|discriminate]. injection H as <- <-.
  pose proof L as L'. unfold h_logout, on_session in L'. destruct (client_of_session (ap_rph (serve_all a vs)) s) as [i|e] eqn:C; [|discriminate].
  exists s, i, inf. split; [reflexivity|]. split; [|auto].
  destruct (app_history a vs F OK) as (os & H1 & H2 & _).
  assert (RK : rnd32 s). { rewrite H2 in C. exact (routed_key _ _ _ _ (proj1 F) H1 C). }
  rewrite H2 in C. destruct (route_sound _ _ _ _ (proj1 F) H1 RK C) as (cl & D & G & _). rewrite <- H2 in D.
  exact (proj2 (begun_by_visit a vs i cl s _ F OK D G)).
Qed.
Print Assumptions C72_logout.

(** C72: a callback is taken to belong to the provider whose client has the address, without the
    query, among its redirect URIs, whatever the query is. *)
Theorem C72_callback_by_address : forall a W b base query args i cl,
  NoDup (dkeys (ap_rph a)) -> dget i (ap_rph a) = Some cl -> In base (redirect_uris (cl_ctx cl)) ->
  (forall j cl', dget j (ap_rph a) = Some cl' -> In base (redirect_uris (cl_ctx cl')) -> j = i) ->
  dget i (ap_hash a) = None -> char_in "?"%char query = false ->
  callback_client a (VAuthzCb W b (base ++ "?" ++ query)%string args) = Some i.
Proof. exact callback_by_address. Qed.
Print Assumptions C72_callback_by_address.
(** C72: and the other way round. *)
Theorem C72_callback_client_has_the_address : forall a W b url args i, NoDup (dkeys (ap_rph a)) ->
  callback_client a (VAuthzCb W b url args) = Some i ->
  exists k cl, dget k (ap_rph a) = Some cl /\ In (splitquery url) (redirect_uris (cl_ctx cl)) /\
    (i = k \/ dget k (ap_hash a) = Some i).
Proof. exact callback_client_address. Qed.
Print Assumptions C72_callback_client_has_the_address.
(** C72: an answer in a fragment belongs to the provider the page names, by the name in its
    callback or by its issuer. *)
Theorem C72_callback_by_name : forall a W b fragment op i,
  callback_client a (VRepostFragment W b fragment op) = Some i <->
  dhas i (ap_rph a) = true /\ (dget op (ap_hash a) = Some i \/ dget op (ap_hash a) = None /\ i = op).
Proof.
  intros. cbn [callback_client]. unfold get_rp. destruct (dget op (ap_hash a)) as [iss|].
  - destruct (dhas iss (ap_rph a)) eqn:E; split; [intros H; injection H as <-; auto|intros [H [X|[X _]]]; congruence|discriminate|intros [H [X|[X _]]]; congruence].
  - destruct (dhas op (ap_rph a)) eqn:E; split; [intros H; injection H as <-; auto|intros [H [X|[_ ->]]]; congruence|discriminate|intros [H [X|[_ ->]]]; congruence].
Qed.
Print Assumptions C72_callback_by_name.
(** C72: the arguments in a fragment: a parameter given once is its text, one given more than
    once the list of its texts; nothing else is there. *)
Theorem C72_fragment_arguments : forall W b fragment op p,
  exists args, callback (VRepostFragment W b fragment op) = Some (W, b, args) /\
  match map snd (filter (fun kv => fst kv =?s p) (parse_qsl fragment)) with
  | [] => dget p args = None
  | [v] => dget p args = Some (VStr v)
  | vs => dget p args = Some (VList (map VStr vs))
  end.
Proof. exact fragment_arguments. Qed.
Print Assumptions C72_fragment_arguments.

(** ** A login *)
Definition fx_ctx : ctx := set_provider_info [("authorization_endpoint", VStr "https://op.example/authz"); ("token_endpoint", VStr "https://op.example/token");
  ("end_session_endpoint", VStr "https://op.example/logout")] vx_ctx.
Definition fx_client : client := mkclient fx_ctx ["authorization"; "accesstoken"; "end_session"] [] false.
Definition fx_app : app := mkapp [(mx_op, fx_client)] [("hash", mx_op)] (fun _ => []).
Definition fx_W := lx_env ex_state "a".
Definition fx_cb (b : nat) (k : string) : visit :=
  VAuthzCb fx_W b ("https://rp.example/cb?code=c0de&state=" ++ k)%string (sx_resp k).
Lemma fx_fresh : fresh_app fx_app.
Proof.
  split; [|reflexivity]. split; [constructor; [intros []|constructor]|]. intros i cl D. cbn [ap_rph fx_app dget] in D.
  destruct (mx_op =?s i) eqn:E; [|discriminate]. apply eqb_true_iff in E. rewrite <- E. injection D as <-.
  split; [|split; [reflexivity|split; [reflexivity|discriminate]]]. split; [|reflexivity]. repeat split; try reflexivity.
Qed.
Definition fx_login : list visit := [VRp fx_W 0 "" mx_op; fx_cb 0 ex_state].
Lemma fx_ok : Forall visit_ok fx_login.
Proof. apply Forall_cons; [split; reflexivity|]. apply Forall_cons; [exact I|constructor]. Qed.
Definition fx_user (p : page) : bool := match p with PUser _ (VStr _) (VDict (_ :: _)) => true | _ => false end.
Definition fx_goes (p : page) : bool := match p with PRedirect _ => true | _ => false end.
Example C72_ex : fresh_app fx_app /\ Forall visit_ok fx_login /\ tame fx_W /\
  fx_goes (fst (serve fx_app (VRp fx_W 0 "" mx_op))) = true /\
  fx_user (fst (serve (serve_all fx_app (firstn 1 fx_login)) (fx_cb 0 ex_state))) = true /\
  fx_goes (fst (serve (serve_all fx_app fx_login) (VLogout fx_W 0))) = true.
Proof.
  split; [exact fx_fresh|]. split; [exact fx_ok|]. split; [apply lx_tame|]. split; [|split]; vm_compute; reflexivity.
Qed.

(** ** What the pages do not do *)

(** C72: the login is not tied to the browser that began it: a browser that has not been at
    the application before gets the page of the user, and the session, when it is sent to the
    callback with the state and code of a login that another browser began. *)
Theorem C72_login_bound_to_browser_refuted : exists a vs v b info tok idt a', fresh_app a /\ Forall visit_ok vs /\
  (forall v0, In v0 vs -> browser v0 <> Some b) /\ browser v = Some b /\ serve (serve_all a vs) v = (PUser info tok idt, a') /\
  dget "state" (ap_session a' b) = Some (VStr ex_state).
Proof.
  assert (X : fx_user (fst (serve (serve_all fx_app (firstn 1 fx_login)) (fx_cb 1 ex_state))) = true) by (vm_compute; reflexivity).
  assert (Y : dget "state" (ap_session (snd (serve (serve_all fx_app (firstn 1 fx_login)) (fx_cb 1 ex_state))) 1) = Some (VStr ex_state)) by (vm_compute; reflexivity).
  remember (serve (serve_all fx_app (firstn 1 fx_login)) (fx_cb 1 ex_state)) as r eqn:E. destruct r as [p a']. cbn [fst snd] in X, Y.
  destruct p as [| | |info tok idt| | | |]; try discriminate X.
  exists fx_app, (firstn 1 fx_login), (fx_cb 1 ex_state), 1, info, tok, idt, a'. split; [exact fx_fresh|]. split.
  { apply Forall_cons; [split; reflexivity|constructor]. }
  split; [intros v0 [<-|[]]; discriminate|]. split; [reflexivity|]. split; [congruence|exact Y].
Qed.
Print Assumptions C72_login_bound_to_browser_refuted.

(** C72: a callback that fails still sets the state of the browser, so a link can make a browser
    that is logged in forget its login: the logout page then fails. *)
Theorem C72_failing_callback_keeps_the_session_refuted : exists a vs v W b, fresh_app a /\ Forall visit_ok (vs ++ [v]) /\
  (exists url a', serve (serve_all a vs) (VLogout W b) = (PRedirect url, a')) /\
  ~ welcomes (fst (serve (serve_all a vs) v)) /\ ap_rph (serve_all a (vs ++ [v])) = ap_rph (serve_all a vs) /\
  exists e, fst (serve (serve_all a (vs ++ [v])) (VLogout W b)) = PCrash e.
Proof.
  exists fx_app, fx_login, (fx_cb 0 "nonsense"), fx_W, 0. split; [exact fx_fresh|]. split.
  { apply Forall_app. split; [exact fx_ok|]. apply Forall_cons; [exact I|constructor]. }
  split. { assert (X : fx_goes (fst (serve (serve_all fx_app fx_login) (VLogout fx_W 0))) = true) by (vm_compute; reflexivity).
    remember (serve (serve_all fx_app fx_login) (VLogout fx_W 0)) as r eqn:E. destruct r as [p a']. cbn [fst] in X. destruct p; try discriminate X. eauto. }
  assert (U : ap_rph (snd (serve (serve_all fx_app fx_login) (fx_cb 0 "nonsense"))) = ap_rph (serve_all fx_app fx_login) /\
    ~ welcomes (fst (serve (serve_all fx_app fx_login) (fx_cb 0 "nonsense")))).
  { eapply unknown_state; [exact fx_fresh|exact fx_ok|reflexivity|]. intros s i v0 D _ J (W & b & dyn & static & -> & S & _).
    change (dget "state" (sx_resp "nonsense")) with (Some (VStr "nonsense")) in D. assert (Z0 : s = "nonsense") by congruence. rewrite Z0 in S. clear Z0 D.
    destruct J as [J|[J|[]]]; [|discriminate J]. assert (Z1 : W = fx_W) by congruence. rewrite Z1 in S. vm_compute in S. discriminate S. }
  split; [apply U|]. split; [rewrite serve_all_snoc; apply U|]. exists (KeyError "None"). vm_compute. reflexivity.
Qed.
Print Assumptions C72_failing_callback_keeps_the_session_refuted.

(** C72: back-channel and front-channel logouts never end a session and are never answered
    with success: nothing in the application changes. *)
Definition succeeds (p : page) : Prop := exists t, p = PText t.
Theorem C72_channel_logout_does_nothing : forall a v,
  (exists vrf op data, v = VBackchannel vrf op data) \/ (exists op sid iss, v = VFrontchannel op sid iss) ->
  snd (serve a v) = a /\ ~ succeeds (fst (serve a v)).
Proof.
  assert (N : forall a e, snd (PCrash e, a : app) = a /\ ~ succeeds (fst (PCrash e, a))) by (intros; split; [reflexivity|intros [? H]; discriminate H]).
  assert (M : forall a z, snd (PStatus z, a : app) = a /\ ~ succeeds (fst (PStatus z, a))) by (intros; split; [reflexivity|intros [? H]; discriminate H]).
  intros a v [(vrf & op & data & ->)|(op & sid & iss & ->)]; cbn [serve]; destruct (get_rp a (Some op)) as [i|]; auto;
    destruct (dget i (ap_rph a)) as [cl|]; auto.
  - destruct (backchannel_logout vrf data [] (cl_ctx cl)); auto.
  - destruct (iss =?s issuer (cl_ctx cl)); auto.
Qed.
Print Assumptions C72_channel_logout_does_nothing.

(** C72: a back-channel logout request that the handler accepts, for a session that is there,
    is answered with a server error, and the session stays. *)
Theorem C72_backchannel_logout_refuted : exists a vs vrf op data cl k, fresh_app a /\ Forall visit_ok vs /\
  dget op (ap_rph (serve_all a vs)) = Some cl /\ backchannel_logout vrf data [] (cl_ctx cl) = Ok k /\
  fst (serve (serve_all a vs) (VBackchannel vrf op data)) = PCrash AttributeError /\
  client_of_session (ap_rph (serve_all a (vs ++ [VBackchannel vrf op data]))) k = Ok op.
Proof.
  exists fx_app, fx_login, (fun c req => lx_logout_verify (logout_verify_args c) req), mx_op, "logout_token=bysub".
  destruct (dget mx_op (ap_rph (serve_all fx_app fx_login))) as [cl|] eqn:D; [|vm_compute in D; discriminate D].
  exists cl, ex_state. split; [exact fx_fresh|]. split; [exact fx_ok|]. split; [reflexivity|].
  assert (B : match dget mx_op (ap_rph (serve_all fx_app fx_login)) with
    | Some cl => backchannel_logout (fun c req => lx_logout_verify (logout_verify_args c) req) "logout_token=bysub" [] (cl_ctx cl) | None => Err OtherError end = Ok ex_state)
    by (vm_compute; reflexivity).
  rewrite D in B. split; [exact B|]. split; [vm_compute; reflexivity|]. vm_compute. reflexivity.
Qed.
Print Assumptions C72_backchannel_logout_refuted.

(** C72: the page the provider may send the browser to when its session there has changed
    never works. *)
Theorem C72_session_change_fails : forall a b, exists e, serve a (VSessionChange b) = (PCrash e, a).
Proof. intros a b. cbn [serve]. destruct (dget "op_identifier" (ap_session a b)); eauto. Qed.
Print Assumptions C72_session_change_fails.

(** C72: the page after a logout is found among the callbacks of the clients only: an address
    that is not one of them, such as the registered address after logout, gets a server error. *)
Theorem C72_page_after_logout : forall a url,
  (forall i cl, dget i (ap_rph a) = Some cl -> ~ In (splitquery url) (redirect_uris (cl_ctx cl))) -> NoDup (dkeys (ap_rph a)) ->
  serve a (VSessionLogout url) = (PCrash AttributeError, a).
Proof.
  intros a url N ND. cbn [serve].
  assert (X : op_by_cb_uri (splitquery url) (ap_rph a) = None).
  { assert (Y : forall i cl, In (i, cl) (ap_rph a) -> ~ In (splitquery url) (redirect_uris (cl_ctx cl))).
    { intros i cl I. apply (N i cl). now apply In_dget_NoDup. }
    clear - Y. induction (ap_rph a) as [|[k c] h IH]; [reflexivity|]. cbn [op_by_cb_uri].
    destruct (mem_str (splitquery url) (redirect_uris (cl_ctx c))) eqn:M.
    - exfalso. apply (Y k c); [now left|]. now apply mem_str_In.
    - apply IH. intros i cl I. apply (Y i cl). now right. }
  rewrite X. reflexivity.
Qed.
Print Assumptions C72_page_after_logout.
Example C72_page_after_logout_ex : fst (serve fx_app (VSessionLogout "https://rp.example/session_logout/op?state=x")) = PCrash AttributeError /\
  fst (serve fx_app (VSessionLogout "https://rp.example/cb?state=x")) = PText "Post logout from https://op.example".
Proof. split; vm_compute; reflexivity. Qed.
