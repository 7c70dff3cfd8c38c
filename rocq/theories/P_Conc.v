(** Threads that use one client. *)
From Verif Require Import Base BaseP Json JsonP Msg M_State S_State P_State M_Ctx M_Codec M_Authz M_ClientAuth
  M_Service M_Token M_Handler S_Service S_Token S_Handler S_Flow S_Trace S_Sched M_Conc S_Conc P_Ctx P_Authz P_Codec P_ClientAuth P_Service P_Wire P_Token
  P_Handler P_Flow P_Trace P_Sim P_SimK P_Sched.

(** ** a thread on its own does what the call does *)
Lemma run_pbind {A B} (p : prog A) (f : A -> prog B) c : run (pbind p f) c = bind (run p) (fun a => run (f a)) c.
Proof.
  revert c. induction p as [[a|e]|T m k IH]; intros c; [reflexivity..|]. cbn [pbind run]. unfold bind.
  destruct (m c) as [[x|e] c1]; [|reflexivity]. rewrite IH. reflexivity.
Qed.
Lemma run_step {A} (m : M A) c : run (step m) c = m c.
Proof. cbn. unfold bind. now destruct (m c) as [[]]. Qed.
Lemma bind_ext {A B} (m m' : M A) (f f' : A -> M B) c : m c = m' c -> (forall a c', f a c' = f' a c') -> bind m f c = bind m' f' c.
Proof. intros H H'. unfold bind. rewrite H. destruct (m' c) as [[a|] c1]; auto. Qed.

Lemma run_service_request http jwt s u m b rbt h st c :
  run (service_request_p http jwt s u m b rbt h st) c = service_request http jwt s u m b rbt h (Some st) c.
Proof.
  unfold service_request_p, service_request. rewrite run_pbind. apply bind_ext; [apply run_step|]. intros a c'. apply run_step.
Qed.
Lemma run_do_request E http jwt s rbt args au kw c : run (do_request_p E http jwt s rbt args au kw) c = do_request E http jwt s rbt args au kw c.
Proof.
  unfold do_request_p, do_request. rewrite run_pbind. apply bind_ext; [apply run_step|]. intros i c'. apply run_service_request.
Qed.
Lemma run_named W cl s args au kw c : run (do_request_named_p W cl s args au kw) c = do_request_named W cl s args au kw c.
Proof. unfold do_request_named_p, do_request_named. destruct (has_service _ _); [apply run_do_request|reflexivity]. Qed.
Lemma run_checked r c : run (checked r) c = (if is_error_response r then raise OidcServiceError else ret r) c.
Proof. unfold checked. now destruct (is_error_response r). Qed.
Lemma run_get_tokens W cl st c : run (get_tokens_p W cl st) c = get_tokens W cl st c.
Proof.
  unfold get_tokens_p, get_tokens. rewrite run_pbind. unfold bind at 1. rewrite run_step. unfold token_args.
  match goal with |- context [match ?x with Ok _ => _ | Err _ => _ end] => destruct x as [[args am]|e] end; [|reflexivity].
  rewrite run_pbind. apply bind_ext; [apply run_named|]. intros a c'. apply run_checked.
Qed.
Lemma run_refresh W cl st scope c : run (refresh_access_token_p W cl st scope) c = refresh_access_token W cl st scope c.
Proof.
  unfold refresh_access_token_p, refresh_access_token. rewrite run_pbind. unfold bind at 1. rewrite run_step.
  destruct (client_authn_method c) as [am|e]; [|reflexivity].
  rewrite run_pbind. apply bind_ext; [apply run_named|]. intros a c'. apply run_checked.
Qed.
Lemma run_user_info W cl st tok c : run (get_user_info_p W cl st tok) c = get_user_info W cl st tok c.
Proof.
  unfold get_user_info_p, get_user_info. rewrite run_pbind. apply bind_ext; [apply run_step|]. intros _ c1.
  rewrite run_pbind. apply bind_ext; [apply run_named|]. intros a c'. apply run_checked.
Qed.
Lemma run_endpoint W cl st c : run (tokens_from_endpoint_p W cl st) c = tokens_from_endpoint W cl st c.
Proof.
  unfold tokens_from_endpoint_p, tokens_from_endpoint. rewrite run_pbind. apply bind_ext; [apply run_get_tokens|]. intros r c1.
  rewrite run_pbind. apply bind_ext; [reflexivity|]. reflexivity.
Qed.
Lemma run_access W cl m st collect c : run (get_access_and_id_token_p W cl m st collect) c = get_access_and_id_token W cl m st collect c.
Proof.
  unfold get_access_and_id_token_p, get_access_and_id_token. rewrite run_pbind. apply bind_ext; [apply run_step|]. intros rq c1.
  rewrite run_pbind. apply bind_ext; [reflexivity|]. intros rt c2. rewrite run_pbind. apply bind_ext; [reflexivity|]. intros idt c3.
  destruct (one_of rt _).
  - rewrite run_pbind. apply bind_ext; [reflexivity|]. intros a c4. destruct collect; [apply run_endpoint|reflexivity].
  - destruct (one_of rt _); [apply run_endpoint|reflexivity].
Qed.
Lemma run_bind_subject idt info st c : run (bind_subject_p idt info st) c = bind_subject idt info st c.
Proof.
  assert (S : forall cl c, run (s <~ plift (dict_get "sub" cl) ;; step (bind_value "subject id" s st)) c = (s <- lift (dict_get "sub" cl) ;; bind_value "subject id" s st) c).
  { intros cl c0. rewrite run_pbind. apply bind_ext; [reflexivity|]. intros s c1. apply run_step. }
  unfold bind_subject_p, bind_subject. destruct idt as [| | | | |[|kv r]]; try apply S.
  rewrite run_pbind. apply bind_ext; [apply run_step|]. intros c0 c1. rewrite run_pbind. apply bind_ext; [|intros _ c2; apply S].
  destruct c0; [|reflexivity]. destruct (dget "sid" (kv :: r)); [apply run_step|reflexivity].
Qed.
Lemma run_finalize W cl iss resp collect c : run (finalize_p W cl iss resp collect) c = finalize W cl iss resp collect c.
Proof.
  unfold finalize_p, finalize. rewrite run_pbind. apply bind_ext; [apply run_step|]. intros m c1. destruct (is_error_message m).
  { rewrite run_pbind. apply bind_ext; [reflexivity|]. intros s c2. rewrite run_pbind. apply bind_ext; reflexivity. }
  destruct (dget "state" m) as [[| | |st| |]|]; try reflexivity.
  rewrite run_pbind. apply bind_ext; [apply run_access|]. intros t c2. rewrite run_pbind. apply bind_ext.
  - destruct (_ && _).
    + destruct (t_access t); try reflexivity. rewrite run_pbind. apply bind_ext; [apply run_user_info|]. reflexivity.
    + now destruct (t_id t) as [| | | | |[|? ?]].
  - intros info c3. rewrite run_pbind. apply bind_ext; [apply run_bind_subject|]. reflexivity.
Qed.
Lemma run_init W cl reqs beh c : run (init_authorization_p W cl reqs beh) c = init_authorization W cl reqs beh c.
Proof.
  unfold init_authorization_p, init_authorization. repeat (rewrite run_pbind; apply bind_ext; [apply run_step|]; intros ? ?). reflexivity.
Qed.
Lemma run_pmap {A B} (f : A -> B) (p : prog A) c : run (pmap f p) c = (rmap f (fst (run p c)), snd (run p c)).
Proof. unfold pmap. rewrite run_pbind. unfold bind. now destruct (run p c) as [[] ?]. Qed.
Lemma run_prog cl o c : run (prog_of cl o) c = (answer_of cl o c, run_call cl o c).
Proof.
  destruct o; cbn [prog_of answer_of run_call]; rewrite run_pmap;
    rewrite ?run_init, ?run_finalize, ?run_get_tokens, ?run_refresh, ?run_user_info, ?run_step; reflexivity.
Qed.

(** ** how long a thread is *)
Fixpoint within {A} (n : nat) (p : prog A) {struct p} : Prop :=
  match p with
  | Done _ => True
  | Step T m k => match n with O => False | S n => forall x, within n (k x) end
  end.
Lemma within_le {A} (p : prog A) : forall n n', n <= n' -> within n p -> within n' p.
Proof.
  induction p as [r|T m k IH]; intros n n' L H; [exact I|]. cbn in *. destruct n as [|n]; [contradiction|]. destruct n' as [|n']; [inversion L|].
  intros x. apply (IH x n n'); [now apply le_S_n|apply H].
Qed.
Lemma within_bind {A B} (p : prog A) (f : A -> prog B) : forall n n', within n p -> (forall a, within n' (f a)) -> within (n + n') (pbind p f).
Proof.
  induction p as [[a|e]|T m k IH]; intros n n' H1 H2; cbn [pbind].
  - eapply within_le; [|apply H2]. induction n; cbn; auto.
  - exact I.
  - cbn in *. destruct n as [|n]; [contradiction|]. cbn. intros x. apply IH; auto.
Qed.
Lemma within_step {A} (m : M A) : within 1 (step m).
Proof. cbn. auto. Qed.
Lemma within_done {A} (r : res A) n : within n (Done r). Proof. exact I. Qed.
Ltac wi := first [apply within_done | apply within_step | exact I].
Lemma within_named W cl s args au kw : within 3 (do_request_named_p W cl s args au kw).
Proof.
  unfold do_request_named_p. destruct (has_service _ _); [|apply within_done]. cbn. auto.
Qed.
Lemma within_checked r : within 0 (checked r).
Proof. unfold checked. now destruct (is_error_response r). Qed.
Lemma within_tokens W cl st : within 4 (get_tokens_p W cl st).
Proof.
  unfold get_tokens_p. apply (within_bind _ _ 1 3); [wi|]. intros a. apply (within_bind _ _ 3 0); [apply within_named|]. intros r. apply within_checked.
Qed.
Lemma within_refresh W cl st scope : within 4 (refresh_access_token_p W cl st scope).
Proof.
  unfold refresh_access_token_p. apply (within_bind _ _ 1 3); [wi|]. intros a. apply (within_bind _ _ 3 0); [apply within_named|]. intros r. apply within_checked.
Qed.
Lemma within_user W cl st tok : within 4 (get_user_info_p W cl st tok).
Proof.
  unfold get_user_info_p. apply (within_bind _ _ 1 3); [wi|]. intros a. apply (within_bind _ _ 3 0); [apply within_named|]. intros r. apply within_checked.
Qed.
Lemma within_endpoint W cl st : within 4 (tokens_from_endpoint_p W cl st).
Proof.
  unfold tokens_from_endpoint_p. apply (within_bind _ _ 4 0); [apply within_tokens|]. intros r. apply (within_bind _ _ 0 0); [wi|]. intros a. wi.
Qed.
Lemma within_access W cl m st collect : within 5 (get_access_and_id_token_p W cl m st collect).
Proof.
  unfold get_access_and_id_token_p. apply (within_bind _ _ 1 4); [wi|]. intros rq. apply (within_bind _ _ 0 4); [wi|]. intros rt.
  apply (within_bind _ _ 0 4); [wi|]. intros idt. destruct (one_of rt _).
  - apply (within_bind _ _ 0 4); [wi|]. intros a. destruct collect; [apply within_endpoint|wi].
  - destruct (one_of rt _); [apply within_endpoint|wi].
Qed.
Lemma within_subject idt info st : within 3 (bind_subject_p idt info st).
Proof.
  assert (S : forall cl, within 1 (s <~ plift (dict_get "sub" cl) ;; step (bind_value "subject id" s st))).
  { intros cl. apply (within_bind _ _ 0 1); [wi|]. intros s. wi. }
  unfold bind_subject_p. destruct idt as [| | | | |[|kv r]]; try (apply (within_le _ 1 3); [auto|apply S]).
  apply (within_bind _ _ 1 2); [wi|]. intros c0. apply (within_bind _ _ 1 1); [|intros _; apply S].
  destruct c0; [|wi]. destruct (dget "sid" (kv :: r)); wi.
Qed.
Lemma within_finalize W cl iss resp collect : within 13 (finalize_p W cl iss resp collect).
Proof.
  unfold finalize_p. apply (within_bind _ _ 1 12); [wi|]. intros m. destruct (is_error_message m).
  { apply (within_le _ 0 12); [apply Nat.le_0_l|]. apply (within_bind _ _ 0 0); [wi|]. intros s. apply (within_bind _ _ 0 0); [wi|]. intros e. wi. }
  destruct (dget "state" m) as [[| | |st| |]|]; try wi.
  apply (within_bind _ _ 5 7); [apply within_access|]. intros t. apply (within_bind _ _ 4 3).
  - destruct (_ && _).
    + destruct (t_access t); try wi. apply (within_bind _ _ 4 0); [apply within_user|]. intros r. wi.
    + destruct (t_id t) as [| | | | |[|? ?]]; wi.
  - intros info. apply (within_bind _ _ 3 0); [apply within_subject|]. intros u. wi.
Qed.
Lemma within_map {A B} (f : A -> B) p n : within n p -> within n (pmap f p).
Proof. intros H. unfold pmap. replace n with (n + 0) by (rewrite Nat.add_comm; reflexivity). apply within_bind; [exact H|]. intros a. wi. Qed.
Lemma within_prog cl o : within 13 (prog_of cl o).
Proof.
  destruct o; cbn [prog_of]; apply within_map.
  - cbn. auto.
  - apply within_finalize.
  - apply (within_le _ 1 13); [|wi]. repeat constructor.
  - apply (within_le _ 4 13); [|apply within_tokens]. repeat constructor.
  - apply (within_le _ 4 13); [|apply within_refresh]. repeat constructor.
  - apply (within_le _ 4 13); [|apply within_user]. repeat constructor.
  - apply (within_le _ 1 13); [|wi]. repeat constructor.
  - apply (within_le _ 1 13); [|wi]. repeat constructor.
Qed.

(** ** the threads of session [k]: every step is the same on two stores that are the same for [k] *)
Section ThreadSim.
  Context {R : db -> db -> Prop} {c00 : ctx}.
  Fixpoint psim {A} (p : prog A) (Q : A -> Prop) : Prop :=
    match p with
    | Done (Ok a) => Q a
    | Done (Err _) => True
    | Step T m k => exists Q' : T -> Prop, P_Sim.sim R c00 true m Q' /\ forall x, Q' x -> psim (k x) Q
    end.
  Lemma psim_bind {A B} (p : prog A) (f : A -> prog B) (Q : A -> Prop) (Q' : B -> Prop) : psim p Q -> (forall a, Q a -> psim (f a) Q') -> psim (pbind p f) Q'.
  Proof.
    induction p as [[a|e]|T m k IH]; intros H1 H2; cbn in *; auto. destruct H1 as (Q1 & X1 & X2). exists Q1. split; [exact X1|]. intros x Hx. apply IH; auto.
  Qed.
  Lemma psim_step {A} (m : M A) (Q : A -> Prop) : P_Sim.sim R c00 true m Q -> psim (step m) Q.
  Proof. intros H. exists Q. split; [exact H|]. auto. Qed.
  Lemma psim_ret {A} (a : A) (Q : A -> Prop) : Q a -> psim (pret a) Q. Proof. auto. Qed.
  Lemma psim_lift {A} (r : res A) (Q : A -> Prop) : (forall a, r = Ok a -> Q a) -> psim (plift r) Q.
  Proof. intros H. destruct r; cbn; auto. Qed.
  Lemma psim_service http jwt s u m b rbt h st args kw : P_Sim.req_sim R c00 st s args kw -> psim (service_request_p http jwt s u m b rbt h st) P_Sim.any.
  Proof.
    intros (Hs & HK & He & Ha & Hc & Hv & H1 & H2 & H3). unfold service_request_p. eapply psim_bind; [apply psim_step; now apply sim_get_response|].
    intros r _. apply psim_step. now apply (sim_after s st r).
  Qed.
  Lemma psim_named k W cl s args au kw : P_Sim.req_sim R c00 k s args kw -> psim (do_request_named_p W cl s args au kw) P_Sim.any.
  Proof.
    intros H. unfold do_request_named_p. destruct (has_service _ _); [|exact I]. unfold do_request_p.
    pose proof H as (Hs & HK & He & Ha & Hc & _). eapply psim_bind; [apply psim_step; now apply sim_grp|]. intros i _. rewrite Hs. eapply psim_service; eauto.
  Qed.
  Lemma psim_checked r : psim (checked r) P_Sim.any.
  Proof. unfold checked. now destruct (is_error_response r). Qed.
End ThreadSim.
Arguments psim R c00 {A} p Q.

Section Session.
  Variable k : string.
  Hypothesis Hk : rnd32 k.
  Variable c00 : ctx.
  Local Notation R := (Rdb k).
  Local Notation sim := (P_Sim.sim R c00).
  Local Notation psim := (psim R c00).
  Local Notation any := P_Sim.any.

  Lemma sim_token_args : sim true (token_args k) (fun a => P_SimK.has_k k (fst a)).
  Proof.
    unfold token_args. apply sim_read.
    - intros c1 c2 C. destruct (R_ctx _ _ C) as [d Hd]. rewrite !(R_item k _ _ _ _ (proj1 C)).
      assert (X : client_authn_method c2 = client_authn_method c1 /\ client_id c2 = client_id c1 /\ client_secret c2 = client_secret c1) by (rewrite Hd; auto).
      destruct X as (-> & -> & ->). reflexivity.
    - intros c [args am] _ Ea. cbn [fst]. destruct (get_item _ _ "auth_response" k) as [ar|]; [|discriminate]. cbn [rbind] in Ea.
      destruct (get_item _ _ "auth_request" k) as [rq|]; [|discriminate]. cbn [rbind] in Ea.
      destruct (dict_get "code" ar); [|discriminate]. cbn [rbind] in Ea. destruct (dict_get "redirect_uri" rq); [|discriminate]. cbn [rbind] in Ea.
      destruct (client_authn_method c); [|discriminate]. cbn [rbind] in Ea. injection Ea as <- _.
      split; [|reflexivity]. cbn. repeat constructor; cbn; intuition discriminate.
  Qed.
  Lemma psim_get_tokens W cl : tame W -> psim (get_tokens_p W cl k) any.
  Proof.
    intros T. unfold get_tokens_p. eapply psim_bind; [apply psim_step, sim_token_args|]. intros [args am] Ha. cbn [fst snd] in *.
    eapply psim_bind; [|intros r _; apply psim_checked].
    apply (psim_named k). apply (P_SimK.token_req k Hk R c00 clean (I_item k) (R_iss k) (I_mult k) (I_store k Hk c00) (P_Sched.sim_bindx k Hk c00) (R_nonce k Hk)); auto; reflexivity.
  Qed.
  Lemma psim_refresh W cl scope : tame W -> psim (refresh_access_token_p W cl k scope) any.
  Proof.
    intros T. unfold refresh_access_token_p. eapply psim_bind; [apply psim_step; apply sim_ctx_any; reflexivity|]. intros am _.
    eapply psim_bind; [|intros r _; apply psim_checked].
    apply (psim_named k). apply (P_SimK.refresh_req k R c00 clean (I_item k) (I_store k Hk c00)); auto; reflexivity.
  Qed.
  Lemma psim_user_info W cl tok : tame W -> psim (get_user_info_p W cl k tok) any.
  Proof.
    intros T. unfold get_user_info_p. eapply psim_bind with (Q := any).
    { apply psim_step. destruct (tok =?s ""); [|now apply sim_ret]. eapply sim_bind with (Q := any); [|intros _ _; now apply sim_ret].
      unfold read_db. apply sim_read; [|intros; exact I]. intros c1 c2 C. apply (R_mult k). exact (proj1 C). }
    intros _ _. eapply psim_bind; [|intros r _; apply psim_checked].
    apply (psim_named k). apply (P_SimK.userinfo_req k R c00 clean (I_mult k) (I_empty k) (I_store k Hk c00)); auto; reflexivity.
  Qed.
  Lemma psim_endpoint W cl : tame W -> psim (tokens_from_endpoint_p W cl k) any.
  Proof.
    intros T. unfold tokens_from_endpoint_p. eapply psim_bind; [now apply psim_get_tokens|]. intros r _.
    eapply psim_bind with (Q := any); [apply psim_lift; intros; exact I|]. intros a _. exact I.
  Qed.
  Lemma psim_access W cl m collect : tame W -> psim (get_access_and_id_token_p W cl m k collect) any.
  Proof.
    intros T. unfold get_access_and_id_token_p. eapply psim_bind with (Q := any).
    { apply psim_step. unfold read_db. apply sim_read; [|intros; exact I]. intros c1 c2 C. apply (R_item k). exact (proj1 C). }
    intros rq _. eapply psim_bind with (Q := any); [apply psim_lift; intros; exact I|]. intros rt _.
    eapply psim_bind with (Q := any); [apply psim_lift; intros; exact I|]. intros idt _.
    destruct (one_of rt _).
    - eapply psim_bind with (Q := any); [apply psim_lift; intros; exact I|]. intros a _. destruct collect; [now apply psim_endpoint|exact I].
    - destruct (one_of rt _); [now apply psim_endpoint|exact I].
  Qed.
  Lemma psim_bind_value x v : In x kinds -> psim (step (bind_value x v k)) any.
  Proof. intros H. apply psim_step. apply (P_SimK.sim_bind_value k R c00 (P_Sched.sim_bindx k Hk c00)). exact H. Qed.
  Lemma psim_subject idt info : psim (bind_subject_p idt info k) any.
  Proof.
    assert (S : forall cl, psim (s <~ plift (dict_get "sub" cl) ;; step (bind_value "subject id" s k)) any).
    { intros cl. eapply psim_bind with (Q := any); [apply psim_lift; intros; exact I|]. intros s _. apply psim_bind_value, in_sub. }
    unfold bind_subject_p. destruct idt as [| | | | |[|kv r]]; try apply S.
    eapply psim_bind with (Q := any); [apply psim_step; now apply sim_ctx_any|]. intros c0 _. eapply psim_bind with (Q := any); [|intros _ _; apply S].
    destruct c0; [|exact I]. destruct (dget "sid" (kv :: r)); [|exact I]. apply psim_bind_value, in_sid.
  Qed.
  Lemma psim_finalize W cl iss resp collect : tame W -> state_of resp = Some k -> psim (finalize_p W cl iss resp collect) any.
  Proof.
    intros T S. unfold finalize_p. eapply psim_bind; [apply psim_step; now apply (P_Sched.sim_finalize_auth k Hk c00)|]. intros m Sm.
    destruct (is_error_message m).
    { eapply psim_bind with (Q := any); [apply psim_lift; intros; exact I|]. intros s _.
      eapply psim_bind with (Q := any); [apply psim_lift; intros; exact I|]. intros e _. exact I. }
    cbn beta in Sm. rewrite Sm. eapply psim_bind with (Q := any); [now apply psim_access|]. intros t _. eapply psim_bind with (Q := any).
    - destruct (_ && _).
      + destruct (t_access t); try exact I. eapply psim_bind with (Q := any); [now apply psim_user_info|]. intros r _. exact I.
      + destruct (t_id t) as [| | | | |[|? ?]]; exact I.
    - intros info _. eapply psim_bind with (Q := any); [apply psim_subject|]. intros u _. exact I.
  Qed.
  Lemma psim_init W cl reqs beh : tame W -> e_state W = k -> plain_conf (conf_of cl "authorization") -> psim (init_authorization_p W cl reqs beh) any.
  Proof.
    intros T Hs PC. unfold init_authorization_p.
    eapply psim_bind with (Q := fun a => NoDup (dkeys a)).
    { apply psim_step. apply sim_ctx; [reflexivity|]. intros c a _ Ha. now destruct (authz_args_spec _ _ _ _ Ha) as (N & _). }
    intros args N. eapply psim_bind with (Q := any); [apply psim_step; now apply sim_ctx_any|]. intros iss _.
    rewrite Hs. eapply psim_bind with (Q := fun q => q = k); [apply psim_step; apply (sim_create k Hk c00); reflexivity|]. intros st Hst. subst st.
    eapply psim_bind with (Q := any); [apply psim_step; apply (P_Sched.sim_bindx k Hk c00), in_nonce|]. intros _ _.
    eapply psim_bind with (Q := any); [|intros i _; exact I]. fold (kwb beh). apply psim_step.
    destruct (authz_fields W cl) as (_ & _ & _ & _ & _ & _ & AF7 & AF8 & _).
    apply sim_grp; [exact AF7|intros d c; now rewrite !AF8|destruct beh; reflexivity|].
    apply (sim_authz_construct k Hk c00); [exact T|exact PC|]. split; [now apply NoDup_dset|]. apply dget_dset_eq.
  Qed.
  Lemma psim_prog cl o : plain_client cl -> tame_call o -> session_of o = Some k -> o <> CClear k -> psim (prog_of cl o) any.
  Proof.
    intros [PC1 PC2] T S NC.
    assert (G : forall A (p : prog A) (f : A -> answer), psim p any -> psim (pmap f p) any).
    { intros A p f H. unfold pmap. eapply psim_bind; [exact H|]. intros a _. exact I. }
    destruct o as [W reqs beh|W iss resp collect|W iss resp|W st|W st scope|W st tok|W st uri|st]; cbn [prog_of session_of tame_call world_of] in *;
      try (assert (st = k) by congruence; subst st); try apply G.
    - apply psim_init; auto. congruence.
    - now apply psim_finalize.
    - apply psim_step. eapply sim_post; [now apply (P_Sched.sim_finalize_auth k Hk c00)|]. intros; exact I.
    - now apply psim_get_tokens.
    - now apply psim_refresh.
    - now apply psim_user_info.
    - apply psim_step. now apply (P_Sched.sim_logout k Hk c00).
    - now destruct NC.
  Qed.
End Session.

(** ** what the steps of a thread write *)
Section ThreadWrites.
  Variable c00 : ctx.
  Local Notation writes := (P_Trace.writes rnd32 c00).
  Local Notation any := P_Trace.any.
  Local Notation F := rnd32_family.
  Local Notation N := rnd32_no_dict.
  Fixpoint pwrites (P : op -> Prop) {A} (p : prog A) (Q : A -> Prop) : Prop :=
    match p with
    | Done (Ok a) => Q a
    | Done (Err _) => True
    | Step T m k => exists Q' : T -> Prop, writes P m Q' /\ forall x, Q' x -> pwrites P (k x) Q
    end.
  Lemma pw_bind (P : op -> Prop) {A B} (p : prog A) (f : A -> prog B) (Q : A -> Prop) (Q' : B -> Prop) : pwrites P p Q -> (forall a, Q a -> pwrites P (f a) Q') -> pwrites P (pbind p f) Q'.
  Proof.
    induction p as [[a|e]|T m k IH]; intros H1 H2; cbn in *; auto. destruct H1 as (Q1 & X1 & X2). exists Q1. split; [exact X1|]. intros x Hx. apply IH; auto.
  Qed.
  Lemma pw_step (P : op -> Prop) {A} (m : M A) (Q : A -> Prop) : writes P m Q -> pwrites P (step m) Q.
  Proof. intros H. exists Q. split; [exact H|]. auto. Qed.
  Lemma pw_lift (P : op -> Prop) {A} (r : res A) (Q : A -> Prop) : (forall a, r = Ok a -> Q a) -> pwrites P (plift r) Q.
  Proof. intros H. destruct r; cbn; auto. Qed.
  Lemma pw_named (P : op -> Prop) (R : msg -> Prop) st W cl s args au kw : P_Trace.req_writes rnd32 c00 P R st s args kw -> pwrites P (do_request_named_p W cl s args au kw) any.
  Proof.
    intros (Hs & He & Hc & HR & H1 & H2 & H3). unfold do_request_named_p. destruct (has_service _ _); [|exact I]. unfold do_request_p.
    eapply pw_bind; [apply pw_step; apply (w_grp rnd32 F); assumption|]. intros i _. rewrite Hs. unfold service_request_p.
    eapply pw_bind; [apply pw_step; now apply (w_get_response rnd32 F c00 P R)|]. intros r Hr. apply pw_step.
    destruct (has_error r) eqn:Eh; [now apply w_ret|]. destruct r as [x|x|x].
    - cbn in Hr, Eh. destruct Hr as [Hr|Hr]; [congruence|]. eapply (w_bind rnd32 F c00); [apply H3; exact Hr|]. intros m' _. now apply w_ret.
    - now apply w_ret.
    - destruct (s_redirect s); [apply w_raise|now apply w_ret].
  Qed.
  Lemma pw_checked P r : pwrites P (checked r) any.
  Proof. unfold checked. now destruct (is_error_response r). Qed.
  Variable st : string.
  Hypothesis Hk : rnd32 st.
  (** writing to the session [st], but no nonce of it *)
  Definition plain_op (o : op) : Prop := op_at st (fun _ => False) o /\ forall q, o <> Remove q.
  Lemma token_plain vrf o : token_op c00 vrf st o -> plain_op o.
  Proof. intros [(m & _ & ->)|(v & _ & ->)]; (split; [|discriminate]); cbn; auto. split; [reflexivity|discriminate]. Qed.
  Lemma refresh_plain vrf o : refresh_op c00 vrf st o -> plain_op o.
  Proof. intros (m & _ & ->). split; [reflexivity|discriminate]. Qed.
  Lemma userinfo_plain o : userinfo_op st o -> plain_op o.
  Proof. intros (c & m & ->). split; [reflexivity|discriminate]. Qed.
  Section Generic.
  Variable P : op -> Prop.
  Lemma pwg_get_tokens W cl : (forall o, token_op c00 (e_vrf W "accesstoken") st o -> P o) -> pwrites P (get_tokens_p W cl st) any.
  Proof.
    intros HP. unfold get_tokens_p. eapply pw_bind with (Q := any); [apply pw_step; now apply w_any_pure|]. intros [args am] _.
    eapply pw_bind; [|intros r _; apply pw_checked]. eapply pw_named. apply (token_reqw rnd32 F); [exact Hk|]. exact HP.
  Qed.
  Lemma pwg_refresh W cl scope : (forall o, refresh_op c00 (e_vrf W "refresh_token") st o -> P o) -> pwrites P (refresh_access_token_p W cl st scope) any.
  Proof.
    intros HP. unfold refresh_access_token_p. eapply pw_bind with (Q := any); [apply pw_step; now apply w_any_pure|]. intros am _.
    eapply pw_bind; [|intros r _; apply pw_checked]. eapply pw_named. apply (refresh_reqw rnd32 F); [exact Hk|]. exact HP.
  Qed.
  Lemma pwg_user_info W cl tok : (forall o, userinfo_op st o -> P o) -> pwrites P (get_user_info_p W cl st tok) any.
  Proof.
    intros HP. unfold get_user_info_p. eapply pw_bind with (Q := any).
    { apply pw_step. apply w_any_pure. intros c. destruct (tok =?s ""); [|reflexivity]. unfold bind, read_db. now destruct (multiple_extend_request_args _ _ _ _ _ _). }
    intros _ _. eapply pw_bind; [|intros r _; apply pw_checked]. eapply pw_named. apply (userinfo_reqw rnd32 F); [exact Hk|]. exact HP.
  Qed.
  Lemma pwg_endpoint W cl : (forall o, token_op c00 (e_vrf W "accesstoken") st o -> P o) -> pwrites P (tokens_from_endpoint_p W cl st) any.
  Proof.
    intros HP. unfold tokens_from_endpoint_p. eapply pw_bind; [now apply pwg_get_tokens|]. intros r _.
    eapply pw_bind with (Q := any); [apply pw_lift; intros; exact I|]. intros a _. exact I.
  Qed.
  Lemma pwg_access W cl m collect : (forall o, token_op c00 (e_vrf W "accesstoken") st o -> P o) -> pwrites P (get_access_and_id_token_p W cl m st collect) any.
  Proof.
    intros HP. unfold get_access_and_id_token_p. eapply pw_bind with (Q := any); [apply pw_step; now apply w_any_pure|].
    intros rq _. eapply pw_bind with (Q := any); [apply pw_lift; intros; exact I|]. intros rt _.
    eapply pw_bind with (Q := any); [apply pw_lift; intros; exact I|]. intros idt _.
    destruct (one_of rt _).
    - eapply pw_bind with (Q := any); [apply pw_lift; intros; exact I|]. intros a _. destruct collect; [now apply pwg_endpoint|exact I].
    - destruct (one_of rt _); [now apply pwg_endpoint|exact I].
  Qed.
  Lemma pwg_subject idt info : (forall x v, In x kinds -> x <> "nonce" -> P (Bind x v st)) -> pwrites P (bind_subject_p idt info st) any.
  Proof.
    intros HP.
    assert (B : forall x v, In x kinds -> x <> "nonce" -> pwrites P (step (bind_value x v st)) any).
    { intros x v H Nx. apply pw_step. apply w_bind_value; auto. }
    assert (S : forall cl, pwrites P (s <~ plift (dict_get "sub" cl) ;; step (bind_value "subject id" s st)) any).
    { intros cl. eapply pw_bind with (Q := any); [apply pw_lift; intros; exact I|]. intros s _. apply B; [apply in_sub|discriminate]. }
    unfold bind_subject_p. destruct idt as [| | | | |[|kv r]]; try apply S.
    eapply pw_bind with (Q := any); [apply pw_step; now apply w_any_pure|]. intros c0 _. eapply pw_bind with (Q := any); [|intros _ _; apply S].
    destruct c0; [|exact I]. destruct (dget "sid" (kv :: r)); [|exact I]. apply B; [apply in_sid|discriminate].
  Qed.
  End Generic.
  Lemma pw_get_tokens W cl : pwrites plain_op (get_tokens_p W cl st) any.
  Proof. apply pwg_get_tokens, token_plain. Qed.
  Lemma pw_refresh W cl scope : pwrites plain_op (refresh_access_token_p W cl st scope) any.
  Proof. apply pwg_refresh, refresh_plain. Qed.
  Lemma pw_user_info W cl tok : pwrites plain_op (get_user_info_p W cl st tok) any.
  Proof. apply pwg_user_info, userinfo_plain. Qed.
  Lemma pw_access W cl m collect : pwrites plain_op (get_access_and_id_token_p W cl m st collect) any.
  Proof. apply pwg_access, token_plain. Qed.
  Lemma pw_subject idt info : pwrites plain_op (bind_subject_p idt info st) any.
  Proof. apply pwg_subject. intros x v _ Nx. split; [split; [reflexivity|]; intros E; contradiction|discriminate]. Qed.
End ThreadWrites.

(** the store operations of the call of a thread *)
Definition at_call (c0 : ctx) (o : call) (x : op) : Prop :=
  exists s, session_of o = Some s /\ op_at s (call_nonces c0 o) x /\ (forall q, x = Remove q -> o = CClear s).
Section CallWrites.
  Variable c0 : ctx.
  Local Notation writes := (P_Trace.writes rnd32 c0).
  Local Notation pwrites := (pwrites c0).
  Local Notation any := P_Trace.any.
  Local Notation F := rnd32_family.
  Local Notation N := rnd32_no_dict.
  Lemma plain_at o s x : session_of o = Some s -> plain_op s x -> at_call c0 o x.
  Proof.
    intros E [H1 H2]. exists s. split; [exact E|]. split.
    - destruct x; cbn in *; auto. destruct H1 as [-> H1]. split; [reflexivity|]. intros X. destruct (H1 X).
    - intros q X. destruct (H2 q X).
  Qed.
  Lemma pw_weaken (P P' : op -> Prop) {A} (p : prog A) (Q : A -> Prop) : pwrites P p Q -> (forall x, P x -> P' x) -> pwrites P' p Q.
  Proof.
    intros H I. induction p as [[a|e]|T m k IH]; cbn in *; auto. destruct H as (Q' & H1 & H2). exists Q'. split; [eapply w_weaken; eauto|]. auto.
  Qed.
  Lemma w_front W iss resp o : tame W -> session_of o = state_of resp -> (forall x, call_nonces c0 o x -> False) ->
    writes (at_call c0 o) (finalize_auth (e_vrf W "authorization") (e_now W) iss resp)
      (fun m => is_error_message m = false -> forall s, dget "state" m = Some (VStr s) -> rnd32 s /\ session_of o = Some s).
  Proof.
    intros T So NN c C r c' E. destruct (w_finalize_auth rnd32 F N c0 (e_vrf W "authorization") (e_now W) iss resp c C r c' E) as (A1 & (ops & A2 & A3) & _).
    split; [exact A1|]. split.
    - exists ops. split; [|exact A3]. eapply Forall_impl; [|exact A2]. cbn. intros x [X1 X2]. split; [exact X1|].
      destruct (call_at (mkclient c0 [] [] false) c0 (CFinalizeAuth W iss resp) x T X2) as (s & Y1 & Y2 & Y3). exists s. split; [rewrite So; exact Y1|].
      split; [|intros q Z; discriminate (Y3 q Z)]. destruct x; cbn in *; auto. destruct Y2 as [-> Y2]. split; [reflexivity|]. intros Z. destruct (Y2 Z).
    - intros m -> Em s Es. pose proof (finalize_auth_spec _ _ _ _ _ _ _ E) as Y. cbn in Y. destruct Y as [[Y _]|[_ (s' & Y1 & Y2 & _)]]; [congruence|].
      rewrite Es in Y1. injection Y1 as <-. split; [eapply closed_iss; [exact N|exact (proj1 C)|exact Y2]|]. rewrite So. eapply state_of_final; eauto.
  Qed.
  Lemma pw_finalize W cl iss resp collect : tame W -> pwrites (at_call c0 (CFinalize W iss resp collect)) (finalize_p W cl iss resp collect) any.
  Proof.
    intros T. unfold finalize_p. eapply pw_bind; [apply pw_step; now apply w_front|]. intros m Hm. cbn beta in Hm.
    destruct (is_error_message m) eqn:Ee.
    { eapply pw_bind with (Q := any); [apply pw_lift; intros; exact I|]. intros s _.
      eapply pw_bind with (Q := any); [apply pw_lift; intros; exact I|]. intros e _. exact I. }
    specialize (Hm eq_refl). destruct (dget "state" m) as [[| | |st| |]|]; try exact I. destruct (Hm st eq_refl) as [Hs Es]. clear Hm.
    assert (PA : forall x, plain_op st x -> at_call c0 (CFinalize W iss resp collect) x) by (intros x; now apply plain_at).
    eapply pw_bind with (Q := any); [eapply pw_weaken; [now apply pw_access|exact PA]|]. intros t _. eapply pw_bind with (Q := any).
    - destruct (_ && _).
      + destruct (t_access t); try exact I. eapply pw_bind with (Q := any); [eapply pw_weaken; [now apply pw_user_info|exact PA]|]. intros r _. exact I.
      + destruct (t_id t) as [| | | | |[|? ?]]; exact I.
    - intros info _. eapply pw_bind with (Q := any); [eapply pw_weaken; [now apply pw_subject|exact PA]|]. intros u _. exact I.
  Qed.
  Lemma pw_init_op W cl reqs beh : rnd32 (e_state W) -> plain_conf (conf_of cl "authorization") ->
    pwrites (init_op c0 (uses_nonce c0 W reqs) (e_state W)) (init_authorization_p W cl reqs beh) any.
  Proof.
    intros Hk PC.
    unfold init_authorization_p.
    eapply pw_bind with (Q := fun a => NoDup (dkeys a) /\ exists n, dget "nonce" a = Some n /\ forall t, n = VStr t -> uses_nonce c0 W reqs t).
    { apply pw_step. intros c [_ C]. apply wa_pure; [reflexivity|]. intros a Ha. cbn in Ha. destruct (authz_args_spec _ _ _ _ Ha) as (ND & _ & _ & _ & _ & P).
      split; [exact ND|]. destruct (P "nonce") as [n Hn]; [cbn; auto|]. exists n. split; [exact Hn|]. intros t ->. right.
      rewrite (authz_args_nonce _ _ _ _ Ha) in Hn. rewrite C in Hn. exact Hn. }
    intros args (ND & n & Hn & Tn). eapply pw_bind with (Q := fun i => i = issuer c0).
    { apply pw_step. intros c [_ C] r c' E. injection E as <- <-. split; [now rewrite set_db_same|]. split; [exists []; split; [constructor|reflexivity]|].
      intros a [= <-]. exact (f_equal issuer C). }
    intros iss ->. eapply pw_bind; [apply pw_step, w_create; [exact Hk|split; reflexivity]|]. intros st Hst. cbn in Hst. subst st.
    eapply pw_bind; [apply pw_step, w_bindx; [exact Hk|apply in_nonce|split; [reflexivity|split; [reflexivity|now left]]]|]. intros _ _.
    eapply pw_bind with (Q := any); [|intros i _; exact I]. fold (kwb beh). apply pw_step.
    apply (w_grp rnd32 F); [now destruct (authz_fields W cl) as (_ & _ & _ & _ & _ & _ & ? & _)|].
    apply (w_authz_construct rnd32 F); [exact Hk|exact PC|]. split; [now apply NoDup_dset|]. split; [apply dget_dset_eq|].
    exists n. rewrite dget_dset_neq by discriminate. auto.
  Qed.
  Lemma pw_init W cl reqs beh : rnd32 (e_state W) -> plain_conf (conf_of cl "authorization") ->
    pwrites (at_call c0 (CInit W reqs beh)) (init_authorization_p W cl reqs beh) any.
  Proof.
    intros Hk PC. apply pw_weaken with (P := init_op c0 (uses_nonce c0 W reqs) (e_state W)).
    { now apply pw_init_op. }
    intros x Hx. exists (e_state W). split; [reflexivity|]. destruct x; cbn in *; try contradiction; (split; [|discriminate]); intuition.
  Qed.
  Lemma pw_prog cl o : plain_client cl -> call_ok o -> tame_call o -> pwrites (at_call c0 o) (prog_of cl o) any.
  Proof.
    intros [PC1 PC2] O T.
    assert (G : forall A (p : prog A) (f : A -> answer) Q, pwrites (at_call c0 o) p Q -> pwrites (at_call c0 o) (pmap f p) any).
    { intros A p f Q H. unfold pmap. eapply pw_bind; [exact H|]. intros a _. exact I. }
    assert (PA : forall s, session_of o = Some s -> forall x, plain_op s x -> at_call c0 o x) by (intros s Es x; now apply plain_at).
    destruct o as [W reqs beh|W iss resp collect|W iss resp|W st|W st scope|W st tok|W st uri|st]; cbn [prog_of call_ok tame_call world_of] in *; eapply G.
    - now apply pw_init.
    - now apply pw_finalize.
    - apply pw_step. now apply w_front.
    - eapply pw_weaken; [now apply pw_get_tokens|]. now apply PA.
    - eapply pw_weaken; [now apply pw_refresh|]. now apply PA.
    - eapply pw_weaken; [now apply pw_user_info|]. now apply PA.
    - apply pw_step. eapply w_weaken; [apply (w_logout rnd32 F); [exact O|exact PC2]|]. intros x (v & ->). apply (PA st eq_refl).
      split; [split; [reflexivity|discriminate]|discriminate].
    - apply pw_step. eapply w_remove; [exact O|]. exists st. split; [reflexivity|]. split; [reflexivity|]. reflexivity.
  Qed.
End CallWrites.

(** ** all threads *)
Section Pool.
  Variable k : string.
  Hypothesis Hk : rnd32 k.
  Variable c0 : ctx.
  Variable cl : client.
  Hypothesis PC : plain_client cl.
  Variable jobs : nat -> call.
  Variable all : list nat.
  Variable L : list call.   (* these calls and all others that use the store, before or after *)
  Hypothesis SC : schedule c0 k L.
  Hypothesis INL : incl (map jobs all) L.
  Local Notation ns := (nonces_of c0 k L).
  Local Notation any := P_Trace.any.
  (** the thread in the two runs *)
  Definition same_thread (p q : prog answer) : Prop := p = q \/ exists e1 e2, p = Done (Err e1) /\ q = Done (Err e2).
  Record rel (s1 s2 : pool * ctx) : Prop := {
    rel_ctx : P_Sched.Rc k c0 (snd s1) (snd s2);
    rel_inv : Inv k ns (sdb (snd s1));
    rel_mine : forall i, about k (jobs i) = true -> same_thread (fst s1 i) (fst s2 i);
    rel_sim : forall i, In i all -> about k (jobs i) = true -> psim (Rdb k) c0 (fst s1 i) P_Sim.any;
    rel_wr : forall i, In i all -> pwrites c0 (at_call c0 (jobs i)) (fst s1 i) any
  }.
  Lemma about_session o : about k o = true -> session_of o = Some k.
  Proof. unfold about. destruct (session_of o) as [s|]; [|discriminate]. intros H. apply String.eqb_eq in H. now subst s. Qed.
  Lemma job_in i : In i all -> In (jobs i) L.
  Proof. intros H. apply INL. now apply in_map. Qed.
  Lemma put_eq i p P : put i p P i = p. Proof. unfold put. now rewrite Nat.eqb_refl. Qed.
  Lemma put_neq i j p P : j <> i -> put i p P j = P j. Proof. intros H. unfold put. apply Nat.eqb_neq in H. now rewrite H. Qed.

  Lemma rel_start c1 c2 : P_Sched.Rc k c0 c1 c2 -> Inv k ns (sdb c1) -> rel (start cl jobs, c1) (start cl jobs, c2).
  Proof.
    destruct SC as (HO & HT & HN & HC). rewrite Forall_forall in HO, HT. intros C I. constructor; cbn [fst snd]; auto.
    - intros i _. now left.
    - intros i Hi Ha. apply psim_prog; auto using about_session, job_in. intros E. apply HC. rewrite <- E. now apply job_in.
    - intros i Hi. apply pw_prog; auto using job_in.
  Qed.
  (** what the operations of a step do *)
  Lemma own_ops i x : In i all -> about k (jobs i) = true -> at_call c0 (jobs i) x -> op_at k ns x /\ forall s, x <> Remove s.
  Proof.
    destruct SC as (_ & _ & _ & HC). intros Hi Ha (s & Es & Hat & HR). rewrite (about_session _ Ha) in Es. injection Es as <-. split.
    - destruct x; cbn in *; auto. destruct Hat as [-> Hn]. split; [reflexivity|]. intros E. specialize (Hn E).
      pose proof (about_session _ Ha) as S. pose proof (job_in i Hi) as J. destruct (jobs i); cbn in Hn; try contradiction. cbn in S. injection S as S. exists W, reqs, beh. auto.
    - intros q ->. apply HC. rewrite <- (HR q eq_refl). now apply job_in.
  Qed.
  Lemma other_ops i x : In i all -> about k (jobs i) = false -> at_call c0 (jobs i) x -> exists q, q <> k /\ op_at q (fun v => ~ ns v) x.
  Proof.
    destruct SC as (_ & _ & HN & _). intros Hi Ha (s & Es & Hat & HR).
    assert (Ns : s <> k) by (intros ->; unfold about in Ha; rewrite Es, String.eqb_refl in Ha; discriminate).
    exists s. split; [exact Ns|]. destruct x; cbn in *; auto. destruct Hat as [-> Hn]. split; [reflexivity|]. intros E. specialize (Hn E).
    pose proof (job_in i Hi) as J. destruct (jobs i); cbn in Hn; try contradiction. cbn in Es. injection Es as Es. intros (W' & reqs' & beh' & Hin & Hs & Hu).
    apply Ns. rewrite <- Es. eapply HN; [exact Hin|exact J|exact Hs|exact Hu|exact Hn].
  Qed.
  Lemma rel_own s1 s2 i : In i all -> about k (jobs i) = true -> rel s1 s2 -> rel (move s1 i) (move s2 i).
  Proof.
    intros Hi Ha [RC RI RM RS RW]. pose proof (RM i Ha) as M. pose proof (RS i Hi Ha) as S. pose proof (RW i Hi) as Wr. unfold move.
    destruct M as [M|(e1 & e2 & M1 & M2)]; [|rewrite M1, M2; constructor; auto]. rewrite <- M.
    destruct (fst s1 i) as [r|T m q] eqn:E1; [constructor; auto; rewrite ?E1; auto|].
    destruct S as (Q & S1 & S2). destruct Wr as (Q' & W1 & W2). destruct (S1 _ _ RC) as (A1 & A2 & A3).
    assert (G : good rnd32 c0 (snd s1)) by (destruct RC as ((_ & _ & _ & X & _) & Y & _); split; auto).
    destruct (m (snd s1)) as [r1 c1] eqn:Em1. destruct (m (snd s2)) as [r2 c2] eqn:Em2. cbn [fst snd] in *.
    destruct (W1 _ G _ _ Em1) as (B1 & (ops & B2 & B3) & B4).
    constructor; cbn [fst snd]; auto.
    - rewrite B3. apply self_run; auto; [|exact (proj1 G)]. eapply Forall_impl; [|exact B2]. cbn. intros x [X1 X2]. split; [exact X1|]. eapply own_ops; eauto.
    - intros j Hj. destruct (Nat.eq_dec j i) as [->|Nj]; [|rewrite !put_neq by exact Nj; auto]. rewrite !put_eq.
      destruct A1 as [->|(_ & e1 & e2 & -> & ->)]; [left; reflexivity|right; eauto].
    - intros j Hj Haj. destruct (Nat.eq_dec j i) as [->|Nj]; [|rewrite !put_neq by exact Nj; auto]. rewrite put_eq. destruct r1 as [x|e]; [|exact I]. auto.
    - intros j Hj. destruct (Nat.eq_dec j i) as [->|Nj]; [|rewrite !put_neq by exact Nj; auto]. rewrite put_eq. destruct r1 as [x|e]; [|exact I]. auto.
  Qed.
  Lemma rel_other s1 s2 i : In i all -> about k (jobs i) = false -> rel s1 s2 -> rel (move s1 i) s2.
  Proof.
    intros Hi Ha [RC RI RM RS RW]. pose proof (RW i Hi) as Wr. unfold move.
    destruct (fst s1 i) as [r|T m q] eqn:E1; [constructor; auto|]. destruct Wr as (Q' & W1 & W2).
    assert (G : good rnd32 c0 (snd s1)) by (destruct RC as ((_ & _ & _ & X & _) & Y & _); split; auto).
    destruct (m (snd s1)) as [r1 c1] eqn:Em1. destruct (W1 _ G _ _ Em1) as (B1 & (ops & B2 & B3) & B4).
    assert (OT : Forall (fun x => op_ok rnd32 x /\ exists q, q <> k /\ op_at q (fun v => ~ ns v) x) ops).
    { eapply Forall_impl; [|exact B2]. cbn. intros x [X1 X2]. split; [exact X1|]. eapply other_ops; eauto. }
    destruct (others_run k Hk ns ops (sdb (snd s1)) OT (proj1 G) RI) as [SK I2]. rewrite <- B3 in SK, I2.
    constructor; cbn [fst snd]; auto.
    - destruct RC as ((D1 & D2 & D3 & D4 & D5) & E2 & E3). destruct SK as (K1 & K2 & K3).
      split; [|split; [rewrite B1, E2; reflexivity|exact E3]].
      split; [congruence|]. split; [congruence|]. split; [intros n; now rewrite K3|]. split; [|exact D5].
      rewrite B3. apply closed_run; [apply rnd32_family|exact D4|]. eapply Forall_impl; [|exact OT]. cbn; tauto.
    - intros j Haj. rewrite put_neq; [auto|]. intros ->. congruence.
    - intros j Hj Haj. rewrite put_neq; [auto|]. intros ->. congruence.
    - intros j Hj. destruct (Nat.eq_dec j i) as [->|Nj]; [|rewrite !put_neq by exact Nj; auto]. rewrite put_eq. destruct r1 as [x|e]; [|exact I]. auto.
  Qed.
  Lemma rel_play l : incl l all -> forall s1 s2, rel s1 s2 -> rel (play l s1) (play (moves_of k jobs l) s2).
  Proof.
    induction l as [|i l IH]; intros HI s1 s2 R; [exact R|]. assert (Hi : In i all) by (apply HI; now left).
    assert (HI' : incl l all) by (intros x Hx; apply HI; now right). unfold moves_of. cbn [filter]. destruct (about k (jobs i)) eqn:Ea.
    - cbn [play fold_left]. apply IH; [exact HI'|]. now apply rel_own.
    - cbn [play fold_left]. apply (IH HI'). now apply rel_other.
  Qed.
End Pool.

(** ** threads that do not overlap *)
Lemma run_move i (s : pool * ctx) : run (fst (move s i) i) (snd (move s i)) = run (fst s i) (snd s).
Proof.
  unfold move. destruct (fst s i) as [r|T m q] eqn:E; [now rewrite E|]. cbn [run]. unfold bind.
  destruct (m (snd s)) as [[x|e] c1]; cbn [fst snd]; rewrite put_eq; reflexivity.
Qed.
Lemma move_other i j (s : pool * ctx) : j <> i -> fst (move s i) j = fst s j.
Proof. intros N. unfold move. destruct (fst s i); [reflexivity|]. destruct (m (snd s)). cbn. now apply put_neq. Qed.
Lemma play_other (l : list nat) (j : nat) : ~ In j l -> forall s, fst (play l s) j = fst s j.
Proof.
  induction l as [|i l IH]; intros N s; [reflexivity|]. cbn [play fold_left]. change (fold_left move l) with (play l).
  rewrite IH by (intros H; apply N; now right). apply move_other. intros ->. apply N. now left.
Qed.
Lemma alone i : forall n s, run (fst (play (repeat i n) s) i) (snd (play (repeat i n) s)) = run (fst s i) (snd s).
Proof.
  induction n as [|n IH]; intros s; [reflexivity|]. cbn [repeat play fold_left]. change (fold_left move (repeat i n)) with (play (repeat i n)).
  rewrite IH. apply run_move.
Qed.
Lemma play_app a b s : play (a ++ b) s = play b (play a s).
Proof. apply fold_left_app. Qed.
Lemma in_repeat (i : nat) n j : In j (repeat i n) -> j = i.
Proof. apply repeat_spec. Qed.
Lemma in_turns is n j : In j (one_by_one is n) -> In j is.
Proof. unfold one_by_one. intros H. apply in_flat_map in H. destruct H as (i & Hi & H). apply in_repeat in H. now subst j. Qed.
Lemma turns cl k jobs n : forall is, NoDup is -> (forall i, In i is -> about k (jobs i) = true) -> forall P c,
  (forall i, In i is -> P i = prog_of cl (jobs i)) ->
  (forall i, In i is -> outcome (fst (play (one_by_one is n) (P, c)) i) <> None) ->
  Forall2 (fun i r => outcome (fst (play (one_by_one is n) (P, c)) i) = Some r) is (answers cl k (map jobs is) c) /\
  snd (play (one_by_one is n) (P, c)) = run_calls cl (map jobs is) c.
Proof.
  induction is as [|i is IH]; intros ND Ha P c HP HD; [split; [constructor|reflexivity]|]. inversion ND as [|? ? Ni ND']; subst.
  cbn [one_by_one flat_map] in *. change (flat_map (fun i => repeat i (n i)) is) with (one_by_one is n) in *. rewrite play_app in *.
  cbn [map answers]. rewrite (Ha i (or_introl eq_refl)).
  pose proof (alone i (n i) (P, c)) as AL. cbn [fst snd] in AL. rewrite (HP i (or_introl eq_refl)), run_prog in AL.
  destruct (play (repeat i (n i)) (P, c)) as [P1 c1] eqn:Es1. cbn [fst snd] in AL.
  assert (E1 : fst (play (one_by_one is n) (P1, c1)) i = P1 i).
  { rewrite play_other; [reflexivity|]. intros H. apply Ni. now apply in_turns in H. }
  assert (D1 : outcome (P1 i) = Some (answer_of cl (jobs i) c) /\ c1 = run_call cl (jobs i) c).
  { pose proof (HD i (or_introl eq_refl)) as H. rewrite E1 in H. destruct (P1 i) as [r|]; [|now destruct H]. cbn in AL |- *.
    unfold lift in AL. injection AL as -> ->. auto. }
  destruct D1 as [D1 D2].
  assert (HP1 : forall j, In j is -> P1 j = prog_of cl (jobs j)).
  { intros j Hj. pose proof (play_other (repeat i (n i)) j) as X. specialize (X (fun H => Ni (eq_ind _ (fun z => In z is) Hj _ (in_repeat _ _ _ H))) (P, c)).
    rewrite Es1 in X. cbn [fst] in X. rewrite X. apply HP. now right. }
  destruct (IH ND' (fun j Hj => Ha j (or_intror Hj)) P1 c1 HP1 (fun j Hj => HD j (or_intror Hj))) as [F2 S2].
  subst c1. split; [constructor; [now rewrite E1|exact F2]|exact S2].
Qed.

(** ** every call comes to an end *)
Lemma within_move (s : pool * ctx) i n : within (S n) (fst s i) -> within n (fst (move s i) i).
Proof.
  unfold move. destruct (fst s i) as [r|T m q] eqn:E; [intros _; cbn; rewrite ?E; exact I|]. intros H. destruct (m (snd s)) as [[x|e] c]; cbn [fst]; rewrite put_eq; [apply H|exact I].
Qed.
Lemma within_play i : forall l (s : pool * ctx) n, within n (fst s i) -> n <= count_occ Nat.eq_dec l i -> outcome (fst (play l s) i) <> None.
Proof.
  induction l as [|j l IH]; intros s n H L.
  - cbn in *. inversion L; subst. destruct (fst s i); [discriminate|contradiction].
  - cbn [play fold_left]. change (fold_left move l) with (play l). cbn [count_occ] in L. destruct (Nat.eq_dec j i) as [->|N].
    + destruct n as [|n].
      * apply (IH _ 0); [|apply Nat.le_0_l]. destruct (fst s i) as [r|] eqn:E; [|contradiction]. unfold move. rewrite E. cbn. rewrite E. exact I.
      * apply (IH _ n); [now apply within_move|now apply le_S_n].
    + apply (IH _ n); [|exact L]. now rewrite move_other by congruence.
Qed.
