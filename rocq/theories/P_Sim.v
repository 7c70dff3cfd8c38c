(** Two runs of a computation on stores that are related: the answers agree and the
    stores are related again.  Used for the interference of sessions (P_Sched.v) and for
    repeated calls (P_Retry.v). *)
From Verif Require Import Base BaseP Json JsonP Msg M_State S_State P_State M_Ctx M_Codec M_Authz M_ClientAuth
  M_Service M_Token M_Handler S_Service S_Token S_Handler S_Flow S_Trace S_Sched P_Ctx P_Authz P_Codec P_ClientAuth P_Service P_Wire P_Token
  P_Handler P_Flow P_Trace.

Section Sim.
  Context {Rdb : db -> db -> Prop} {c00 : ctx}.
  Definition Rc (c1 c2 : ctx) : Prop :=
    Rdb (sdb c1) (sdb c2) /\ c1 = set_db (sdb c1) c00 /\ c2 = set_db (sdb c2) c00.

  Definition agree (w : bool) {A} (r1 r2 : res A) : Prop :=
    r1 = r2 \/ (w = true /\ exists e1 e2, r1 = Err e1 /\ r2 = Err e2).
  Definition sim (w : bool) {A} (m : M A) (Q : A -> Prop) : Prop :=
    forall c1 c2, Rc c1 c2 -> agree w (fst (m c1)) (fst (m c2)) /\ Rc (snd (m c1)) (snd (m c2)) /\
      (forall a, fst (m c1) = Ok a -> Q a).

  Lemma sim_weaken {A} (m : M A) Q : sim false m Q -> sim true m Q.
  Proof. intros H c1 c2 C. destruct (H _ _ C) as (A1 & A2 & A3). split; [|auto]. destruct A1 as [A1|[A1 _]]; [now left|discriminate]. Qed.
  Lemma sim_any w {A} (m : M A) Q : sim false m Q -> sim w m Q.
  Proof. destruct w; [apply sim_weaken|auto]. Qed.
  Lemma sim_post w {A} (m : M A) (Q Q' : A -> Prop) : sim w m Q -> (forall a, Q a -> Q' a) -> sim w m Q'.
  Proof. intros H I c1 c2 C. destruct (H _ _ C) as (A1 & A2 & A3). auto. Qed.
  Lemma sim_bind w {A B} (m : M A) (f : A -> M B) Q R : sim w m Q -> (forall a, Q a -> sim w (f a) R) -> sim w (bind m f) R.
  Proof.
    intros H1 H2 c1 c2 C. unfold bind. destruct (H1 _ _ C) as (A1 & A2 & A3).
    destruct (m c1) as [[a1|e1] d1], (m c2) as [[a2|e2] d2]; cbn [fst snd] in *.
    - destruct A1 as [A1|(_ & e1 & e2 & X & _)]; [|discriminate]. injection A1 as <-. apply H2; [now apply A3|exact A2].
    - destruct A1 as [A1|(_ & e1 & e' & X & _)]; discriminate.
    - destruct A1 as [A1|(_ & e' & e2 & _ & X)]; discriminate.
    - split; [|split; [exact A2|discriminate]]. destruct A1 as [A1|(Hw & _)]; [left; congruence|right; eauto].
  Qed.
  (** reads that give the same on both *)
  Lemma sim_read w {A} (f : ctx -> res A) (Q : A -> Prop) :
    (forall c1 c2, Rc c1 c2 -> f c1 = f c2) -> (forall c a, c = set_db (sdb c) c00 -> f c = Ok a -> Q a) -> sim w (fun c => (f c, c)) Q.
  Proof. intros H HQ c1 c2 C. cbn. split; [left; auto|]. split; [exact C|]. intros a. apply HQ. exact (proj1 (proj2 C)). Qed.
  (** reads of everything but the store *)
  Lemma R_ctx c1 c2 : Rc c1 c2 -> exists d, c2 = set_db d c1.
  Proof. intros (_ & H1 & H2). exists (sdb c2). rewrite H1, set_db_set. exact H2. Qed.
  Lemma sim_ctx w {A} (f : ctx -> res A) (Q : A -> Prop) :
    (forall d c, f (set_db d c) = f c) -> (forall c a, c = set_db (sdb c) c00 -> f c = Ok a -> Q a) -> sim w (fun c => (f c, c)) Q.
  Proof. intros H. apply sim_read. intros c1 c2 C. destruct (R_ctx _ _ C) as [d ->]. now rewrite H. Qed.
  Definition any {A} (_ : A) : Prop := True.
  Lemma sim_ctx_any w {A} (f : ctx -> res A) : (forall d c, f (set_db d c) = f c) -> sim w (fun c => (f c, c)) any.
  Proof. intros H. apply sim_ctx; [exact H|]. intros; exact I. Qed.
  Lemma sim_ret w {A} (a : A) (Q : A -> Prop) : Q a -> sim w (ret a) Q.
  Proof. intros H c1 c2 C. split; [now left|]. split; [exact C|]. now intros x [= <-]. Qed.
  Lemma sim_raise w {A} e (Q : A -> Prop) : sim w (raise e) Q.
  Proof. intros c1 c2 C. split; [now left|]. split; [exact C|]. discriminate. Qed.
  Lemma sim_lift w {A} (x : res A) (Q : A -> Prop) : (forall a, x = Ok a -> Q a) -> sim w (lift x) Q.
  Proof. intros H c1 c2 C. split; [now left|]. split; [exact C|]. exact H. Qed.

  Lemma sim_on w {A} (f : db -> res A * db) (Q : A -> Prop) :
    (forall d1 d2, Rdb d1 d2 -> fst (f d1) = fst (f d2) /\ Rdb (snd (f d1)) (snd (f d2))) -> (forall d a, fst (f d) = Ok a -> Q a) -> sim w (on_db f) Q.
  Proof.
    intros H HQ c1 c2 (C & E1 & E2). unfold on_db. destruct (H _ _ C) as [X Y].
    pose proof (HQ (sdb c1)) as Z. destruct (f (sdb c1)) as [r1 d1], (f (sdb c2)) as [r2 d2]. cbn [fst snd] in *.
    split; [now left|]. split; [|exact Z]. split; [now rewrite !sdb_set|]. rewrite !sdb_set. split; [rewrite E1|rewrite E2]; now rewrite !set_db_set.
  Qed.
  (** ** services *)
  Lemma gather_db s d c : forall ps a, gather_loop s (set_db d c) ps a = gather_loop s c ps a.
  Proof.
    induction ps as [|p ps IH]; intros a; [reflexivity|]. cbn [gather_loop].
    destruct (dhas p a); [apply IH|]. destruct (p =?s "state"); [reflexivity|].
    change (gathered s (set_db d c) p) with (gathered s c p). apply IH.
  Qed.
  Lemma sim_run_pre w ms kw (Q : dict val -> Prop) : forall a p, Q a ->
    (forall m, In m ms -> forall a p, Q a -> sim w (m a p kw) (fun ap => Q (fst ap))) -> sim w (run_pre ms a p kw) (fun ap => Q (fst ap)).
  Proof.
    induction ms as [|m ms IH]; intros a p Ha H; cbn [run_pre]; [now apply sim_ret|].
    eapply sim_bind; [apply H; [now left|exact Ha]|]. intros [a1 p1] Q1. apply IH; [exact Q1|]. intros m' Hm'. apply H. now right.
  Qed.
  Lemma sim_run_post w ms kw (Q : msg -> Prop) : forall r, Q r ->
    (forall m, In m ms -> forall r, Q r -> sim w (m r kw) Q) -> sim w (run_post ms r kw) any.
  Proof.
    induction ms as [|m ms IH]; intros r Hr H; cbn [run_post]; [now apply sim_ret|].
    eapply sim_bind; [apply H; [now left|exact Hr]|]. intros r1 Q1. apply IH; [exact Q1|]. intros m' Hm'. apply H. now right.
  Qed.
  Definition with_state_kw (s : service) (kw a : dict val) : dict val :=
    match dget "state" kw with
    | Some v => if mem_str "state" (c_par (s_cls s)) then dsetdefault "state" v a else a
    | None => a
    end.
  Lemma sim_construct w s args kw (QA : dict val -> Prop) (QR : msg -> Prop) :
    sim w (do_pre_construct s args kw) (fun ap => QA (fst ap)) ->
    (forall d c a, s_gather s a (set_db d c) = s_gather s a c) ->
    (forall a a3 c req, QA a -> gather_request_args s c (with_state_kw s kw a) = Ok a3 -> msg_new (s_cls s) a3 = Ok req -> QR req) ->
    (forall r post, QR r -> sim w (do_post_construct s r post) any) ->
    sim w (construct s args kw) any.
  Proof.
    intros H1 H2 H3 H4. unfold construct. eapply sim_bind; [exact H1|]. intros [a1 post] Q1. cbn [fst] in Q1.
    fold (with_state_kw s kw a1).
    eapply sim_bind with (Q := fun a3 => exists c, gather_request_args s c (with_state_kw s kw a1) = Ok a3).
    { apply sim_ctx; [|intros c a _ Ha; exists c; exact Ha]. intros d c. unfold gather_request_args. rewrite gather_db.
      destruct (gather_loop s c _ _); [apply H2|reflexivity]. }
    intros a3 [c E3]. eapply sim_bind with (Q := QR); [apply sim_lift; intros req Er; eauto|]. intros req QQ. now apply H4.
  Qed.
  Lemma authn_db E meth name cls atr d c kw ha req : dget "key" kw = None ->
    authenticate E meth name cls atr (set_db d c) kw ha req = authenticate E meth name cls atr c kw ha req.
  Proof.
    intros HK. assert (F : forall ty r, find_token (set_db d c) kw ty r = find_token c kw ty r).
    { intros ty r. unfold find_token. rewrite HK. reflexivity. }
    unfold authenticate. repeat match goal with |- context [if ?b then _ else _] => destruct b; [try reflexivity|] end.
    - unfold bearer_header. now rewrite F.
    - unfold bearer_body. rewrite F. destruct (find_token c kw "access_token" req) as [[t r]|]; [|reflexivity]. cbn [rbind]. now rewrite F.
    - reflexivity.
  Qed.
  Lemma sim_get_headers w E s req hm au kw : s_extra s = [] -> (forall d c, s_authn s (set_db d c) = s_authn s c) -> dget "key" kw = None ->
    sim w (get_headers E s req hm au kw) any.
  Proof.
    intros He Ha HK. unfold get_headers. rewrite He.
    eapply sim_bind with (Q := any); [apply sim_ctx_any; intros; now rewrite Ha|]. intros me _.
    eapply sim_bind with (Q := any).
    { apply sim_ctx_any. intros d c. unfold get_authn_header. destruct (me =?s ""); [reflexivity|].
      rewrite authn_db; [reflexivity|]. now rewrite dget_dset_neq by discriminate. }
    intros hr _. cbn [run_headers]. eapply sim_bind with (Q := any); [now apply sim_ret|]. intros h _. now apply sim_ret.
  Qed.
  Lemma sim_grp w E s args m b au kw : s_extra s = [] -> (forall d c, s_authn s (set_db d c) = s_authn s c) -> dget "key" kw = None ->
    sim w (construct s args kw) any -> sim w (get_request_parameters E s args m b au kw) any.
  Proof.
    intros He Ha HK Hc. unfold get_request_parameters.
    eapply sim_bind with (Q := any); [apply sim_ctx_any; intros; now rewrite Ha|]. intros a _.
    eapply sim_bind with (Q := any); [exact Hc|]. intros req _.
    eapply sim_bind with (Q := any); [now apply sim_ctx_any|]. intros iss _.
    eapply sim_bind with (Q := any); [apply sim_get_headers; auto; destruct (iss =?s ""); [exact HK|now rewrite dget_dset_neq by discriminate]|]. intros [h r1] _.
    eapply sim_bind with (Q := any).
    { destruct (dget "endpoint" kw); [now apply sim_ret|]. now apply sim_ctx_any. }
    intros ep _. destruct ep; try apply sim_raise.
    eapply sim_bind with (Q := any); [apply sim_lift; intros; exact I|]. intros u _.
    destruct (_ =?s "POST"); [|now apply sim_ret].
    eapply sim_bind with (Q := any); [apply sim_lift; intros; exact I|]. intros bd _. now apply sim_ret.
  Qed.
  Lemma sim_parse_response jwt s inf fm st :
    (forall d c m, s_vrf s (set_db d c) m = s_vrf s c m) -> (forall m, sim false (s_post_parse s m st) any) ->
    sim false (parse_response jwt s inf fm st) any.
  Proof.
    intros Hv H. unfold parse_response. destruct (mem_str _ ["jose"; "jws"; "jwe"]); [apply sim_raise|].
    eapply sim_bind with (Q := any).
    { apply sim_ctx_any. intros d c. reflexivity. }
    intros resp _. eapply sim_bind with (Q := any).
    - destruct (is_error_message resp); [now apply sim_ret|]. intros c1 c2 C. destruct (R_ctx _ _ C) as [d Hd].
      assert (EV : s_vrf s c2 resp = s_vrf s c1 resp) by (rewrite Hd; apply Hv). rewrite EV.
      destruct (s_vrf s c1 resp) as [v|e]; [apply H; exact C|]. apply (sim_raise false e any). exact C.
    - intros r _. destruct r; [apply sim_raise|now apply sim_ret].
  Qed.
  Lemma sim_get_response http jwt s u m b rbt h st :
    (forall d c m, s_vrf s (set_db d c) m = s_vrf s c m) ->
    (forall x, sim false (s_post_parse s x st) any) -> (forall x, sim false (s_post_parse s x "") any) ->
    sim true (get_response http jwt s u m b rbt h st) any.
  Proof.
    intros Hv H1 H2.
    apply sim_weaken. unfold get_response. destruct (http u m b h) as [resp|]; [|apply sim_raise].
      destruct (_ && _)%Z; [now apply sim_ret|]. destruct (_ && _); [now apply sim_ret|].
      unfold parse_request_response. destruct (zmem _ SUCCESSFUL).
      { eapply sim_bind with (Q := any); [now apply sim_parse_response|]. intros x Hx. now apply sim_ret. }
      destruct (zmem _ _); [now apply sim_ret|]. destruct (_ =? 500)%Z; [apply sim_raise|].
      destruct (_ && _)%Z; [|apply sim_raise].
      intros c1 c2 C.
      match goal with |- context [parse_response ?a ?b ?d ?e "" c1] => pose proof (sim_parse_response a b d e "" Hv H2 c1 c2 C) as W1;
        destruct (parse_response a b d e "" c1) as [x1 c1'], (parse_response a b d e "" c2) as [x2 c2'] end.
      cbn [fst snd] in W1. destruct W1 as ([W1|[W1 _]] & W2 & _); [|discriminate]. subst x2.
      destruct x1 as [y|e]; [cbn; split; [now left|]; split; [exact W2|]; intros; exact I|].
      destruct e; try (cbn; split; [now left|]; split; [exact W2|]; intros; exact I).
      match goal with |- context [if ?b then _ else _] => destruct b end; [cbn; split; [now left|]; split; [exact W2|]; intros; exact I|].
      match goal with |- context [parse_response ?a ?b ?d ?e "" c1'] => pose proof (sim_parse_response a b d e "" Hv H2 c1' c2' W2) as W3;
        destruct (parse_response a b d e "" c1') as [x1 c1''], (parse_response a b d e "" c2') as [x2 c2''] end.
      cbn [fst snd] in W3. destruct W3 as ([W3|[W3 _]] & W4 & _); [|discriminate]. subst x2.
      destruct x1 as [y|[]]; (cbn; split; [now left|]; split; [exact W4|]; intros; exact I).
  Qed.
  (** what follows the answer *)
  Definition after_answer (s : service) (st : string) (r : response) : M response :=
    if has_error r then ret r
    else match r with
         | RMsg m => m' <- s_update s m st ;; ret (RMsg m')
         | RHttp hr => match s_redirect s with Some e => raise e | None => ret r end
         | RText _ => ret r
         end.
  Lemma sim_after s st r : (forall x, sim true (s_update s x st) any) -> sim true (after_answer s st r) any.
  Proof.
    intros H3. unfold after_answer. destruct (has_error r) eqn:Eh; [now apply sim_ret|]. destruct r as [x|x|x].
    - eapply sim_bind; [apply H3|]. intros m' _. now apply sim_ret.
    - now apply sim_ret.
    - destruct (s_redirect s); [apply sim_raise|now apply sim_ret].
  Qed.
  Lemma sim_service_request http jwt s u m b rbt h st :
    (forall d c m, s_vrf s (set_db d c) m = s_vrf s c m) ->
    (forall x, sim false (s_post_parse s x st) any) -> (forall x, sim false (s_post_parse s x "") any) ->
    (forall x, sim true (s_update s x st) any) ->
    sim true (service_request http jwt s u m b rbt h (Some st)) any.
  Proof.
    intros Hv H1 H2 H3. unfold service_request. eapply sim_bind with (Q := any); [now apply sim_get_response|].
    intros r _. now apply (sim_after s st r).
  Qed.
  (** what a request of a service needs *)
  Definition req_sim (k : string) (s : service) (args kw : dict val) : Prop :=
    dget "state" kw = Some (VStr k) /\ dget "key" kw = None /\ s_extra s = [] /\
    (forall d c, s_authn s (set_db d c) = s_authn s c) /\
    sim true (construct s args kw) any /\
    (forall d c m, s_vrf s (set_db d c) m = s_vrf s c m) /\
    (forall x, sim false (s_post_parse s x k) any) /\ (forall x, sim false (s_post_parse s x "") any) /\
    (forall x, sim true (s_update s x k) any).
  Lemma sim_do_request k E http jwt s rbt args au kw : req_sim k s args kw -> sim true (do_request E http jwt s rbt args au kw) any.
  Proof.
    intros (Hs & HK & He & Ha & Hc & Hv & H1 & H2 & H3). unfold do_request. eapply sim_bind; [now apply sim_grp|]. intros i _. rewrite Hs. now apply sim_service_request.
  Qed.

  Lemma sim_call {A} (f : M response) (g : response -> M A) : sim true f any -> (forall r, sim true (g r) any) -> sim true (bind f g) any.
  Proof. intros H G. eapply sim_bind; [exact H|]. intros r _. apply G. Qed.
  Lemma sim_checked r : sim true (if is_error_response r then raise OidcServiceError else ret r) any.
  Proof. destruct (is_error_response r); [apply sim_raise|now apply sim_ret]. Qed.

End Sim.
Arguments Rc Rdb c00 c1 c2 : clear implicits.
Arguments sim Rdb c00 w {A} m Q.
Arguments req_sim Rdb c00 k s args kw : clear implicits.
