(** Proofs for T_Honest.v: the token request and its answer. *)
From Verif Require Import Base BaseP Json JsonP Msg M_State S_State P_State M_Ctx M_Codec M_Authz M_ClientAuth M_Service M_Token M_Handler
  S_Service S_Token S_Handler S_Flow S_Trace S_Sched S_Retry P_Ctx P_Authz P_Codec P_ClientAuth P_Service P_Wire P_Token
  P_Token2 P_Handler P_Flow P_Trace P_Flow2 P_Handler2 P_Sim P_SimK P_Sched P_Retry S_Traffic S_Honest P_Honest.

Lemma gather_loop_total s c ps : forall args, dhas "state" args = true -> exists out, gather_loop s c ps args = Ok out.
Proof.
  induction ps as [|p ps IH]; intros args H; cbn [gather_loop]; [eauto|].
  destruct (dhas p args) eqn:Hp; [now apply IH|]. destruct (p =?s "state") eqn:E; [apply eqb_true_iff in E; congruence|].
  apply IH. destruct (gathered s c p); [|exact H]. unfold dhas in *. rewrite dget_dset_neq; [exact H|]. intros ->. now rewrite eqb_refl in E.
Qed.
Lemma method_args_state s what kw k : dget "state" kw = Some (VStr k) -> NoDup (dkeys kw) -> dget "state" (method_args s what kw) = Some (VStr k).
Proof.
  intros H N. unfold method_args. destruct (dget what (s_conf s)) as [[]|]; try exact H. rewrite dget_dupdate.
  rewrite dget_rev_NoDup by exact N. now rewrite H.
Qed.
Lemma dhas_some {A} p (d : dict A) v : dget p d = Some v -> dhas p d = true.
Proof. unfold dhas. now intros ->. Qed.

Section Token.
  Variables (k iss : string).
  Hypothesis Hk : rnd32 k.
  Let i := VStr iss.
  Let Kne : k <> "" := proj1 rnd32_family k Hk.
  Let kw : dict val := [("state", VStr k)].

  Lemma token_pre_ok ps args post kw' c : sound k i (sdb c) -> dget "state" kw' = Some (VStr k) ->
    exists a, NoDup (dkeys a) /\ token_pre ps args post kw' c = (Ok (dupdate a args, post), c).
  Proof.
    intros S H. unfold token_pre, get_state_parameter. rewrite H. cbn [rbind key_arg].
    destruct (own_extend k Hk i (sdb c) [] cOAuth2AuthzRequest "auth_request" ps false S ltac:(discriminate) eq_refl) as [a1 E1]. rewrite E1. cbn [rbind].
    destruct (own_extend k Hk i (sdb c) a1 cAuthzResponse "auth_response" ps false S ltac:(discriminate) eq_refl) as [a2 E2]. rewrite E2. cbn [rbind].
    apply extend_NoDup in E1; [|constructor]. apply extend_NoDup in E2; [|exact E1].
    eexists. split; [|reflexivity]. now apply NoDup_dsetdefault.
  Qed.
  Definition verifier_there (cl : client) (d : db) : Prop :=
    cl_pkce cl = true -> exists it v, get_item d cMessage "pkce" k = Ok it /\ dget "code_verifier" it = Some v.
  Lemma construct_ok W cl args c : sound k i (sdb c) -> dget "state" args = Some (VStr k) -> uniq args -> verifier_there cl (sdb c) ->
    exists req, construct (token_svc W cl) args kw c = (Ok req, c).
  Proof.
    intros S H U V. set (s := token_svc W cl).
    assert (Pre : exists a, NoDup (dkeys a) /\ do_pre_construct s args kw c = (Ok (dupdate a args, []), c)).
    { unfold do_pre_construct. assert (M : dget "state" (method_args s "pre_construct" kw) = Some (VStr k)).
      { apply method_args_state; [reflexivity|]. repeat constructor; cbn; tauto. }
      set (kw' := method_args s "pre_construct" kw) in *. subst s. unfold token_svc.
      destruct (cl_pkce cl); cbn [with_pkce oidc_token_service s_pre List.app run_pre]; rewrite bind_run;
        destruct (token_pre_ok (c_par cTokenRequest) args [] kw' c S M) as (a & Na & ->); exists a; cbn [fst snd]; (split; [exact Na|]); [|reflexivity].
      rewrite bind_run. unfold put_state_in_post_args, carry_state, get_state_parameter. rewrite M. reflexivity. }
    destruct Pre as (a & Na & Pre). unfold construct. rewrite bind_run, Pre.
    assert (D0 : dget "state" (dupdate a args) = Some (VStr k)).
    { rewrite dget_dupdate, dget_rev_NoDup by exact U. now rewrite H. }
    assert (D1 : dhas "state" (match dget "state" kw with Some v => if mem_str "state" (c_par (s_cls s)) then dsetdefault "state" v (dupdate a args) else dupdate a args | None => dupdate a args end) = true).
    { cbn [dget kw String.eqb]. change ("state" =?s "state") with true. cbn iota. destruct (mem_str _ _); [|eapply dhas_some; exact D0].
      eapply dhas_some. rewrite dget_dsetdefault, D0. reflexivity. }
    set (args2 := match dget "state" kw with Some _ => _ | None => _ end) in *.
    assert (N2 : NoDup (dkeys args2)).
    { subst args2. cbn [dget kw]. change ("state" =?s "state") with true. cbn iota.
      assert (N : NoDup (dkeys (dupdate a args))) by now apply NoDup_dupdate.
      destruct (mem_str _ _); [|exact N]. now apply NoDup_dsetdefault. }
    destruct (gather_loop_total s c (c_par (s_cls s)) args2 D1) as [out G].
    assert (SG : s_gather s = no_gather) by (subst s; unfold token_svc; destruct (cl_pkce cl); reflexivity).
    assert (SC : s_cls s = cTokenRequest) by (subst s; unfold token_svc; destruct (cl_pkce cl); reflexivity).
    rewrite bind_run. unfold gather_request_args. rewrite G. cbn [rbind]. rewrite SG. cbn [no_gather].
    rewrite bind_run. unfold lift. rewrite SC. destruct (msg_new_total cTokenRequest out eq_refl) as [req0 E0]. rewrite E0.
    destruct (gather_loop_get s c (c_par (s_cls s)) args2 out G) as [GN GG].
    unfold do_post_construct. generalize (method_args s "post_construct" (match dget "behaviour_args" kw with Some (VDict b) => dupdate [] b | _ => [] end)).
    intros kw2. cbn [dget kw]. subst s. unfold token_svc, verifier_there in *. destruct (cl_pkce cl); cbn [with_pkce oidc_token_service s_post List.app run_post].
    2: { exists req0. reflexivity. }
    rewrite bind_run. unfold add_code_verifier.
    assert (ST : dget "state" req0 = Some (VStr k)).
    { rewrite (msg_new_get _ _ _ (GN N2) E0), GG.
      unfold dhas in D1. assert (DA : dget "state" args2 = Some (VStr k)).
      { subst args2. cbn [dget kw]. change ("state" =?s "state") with true. cbn iota. destruct (mem_str _ _); [|exact D0].
        now rewrite dget_dsetdefault, D0. }
      rewrite DA, (key_shown k Hk). reflexivity. }
    rewrite ST. cbn [rbind key_arg]. destruct (V eq_refl) as (it & v & -> & E2). cbn [rbind]. unfold dict_get. rewrite E2. cbn [rbind]. eexists. reflexivity.
  Qed.

  (** the code verifier that passes the check [f] *)
  Definition pkce_ready (cl : client) (pkce : option (string -> string * string)) (d : db) : Prop :=
    match pkce with
    | None => cl_pkce cl = false
    | Some f => cl_pkce cl = true /\ exists it v, get_item d cMessage "pkce" k = Ok it /\ dget "code_verifier" it = Some (VStr v) /\
                 v <> "" /\ fst (f v) = snd (f v)
    end.
  Lemma token_request_ok W cl c code ru am ep pkce : sound k i (sdb c) -> code <> "" -> ru <> "" -> uses_secret c ->
    client_authn_method c = Ok am -> dget "token_endpoint" (provider_info c) = Some (VStr ep) -> pkce_ready cl pkce (sdb c) ->
    exists r txt h, get_request_parameters (e_authn W) (token_svc W cl) (tok_args c k (VStr code) (VStr ru)) "" "" am kw c =
      (Ok (mkinfo "POST" r ep (Some (BText txt)) h), c) /\ redeems (client_id c) (client_secret c) code ru pkce (Some (BText txt)) h.
  Proof.
    intros S Hc Hr (I1 & I2 & I3) HA EP PK.
    destruct (construct_ok W cl (tok_args c k (VStr code) (VStr ru)) c S eq_refl (tok_args_NoDup c k _ _)) as [req C].
    { intros P. destruct pkce as [f|]; [|cbn in PK; congruence]. destruct PK as (_ & it & v & A & B & _). eauto. }
    destruct (token_construct _ _ _ _ _ _ _ (is_token_svc W cl) (tok_args_NoDup c k (VStr code) (VStr ru)) C) as (_ & N & G & _).
    assert (SK : forall v, v <> "" -> skipped (VStr v) = false) by (intros [|]; easy).
    assert (G1 : dget "client_id" req = Some (VStr (client_id c))) by (apply G; [discriminate|reflexivity|now apply SK]).
    assert (G2 : dget "client_secret" req = Some (VStr (client_secret c))) by (apply G; [discriminate|reflexivity|now apply SK]).
    assert (G3 : dget "grant_type" req = Some (VStr "authorization_code")) by (apply G; [discriminate|reflexivity|reflexivity]).
    assert (G4 : dget "code" req = Some (VStr code)) by (apply G; [discriminate|reflexivity|now apply SK]).
    assert (G5 : dget "redirect_uri" req = Some (VStr ru)) by (apply G; [discriminate|reflexivity|now apply SK]).
    destruct (token_svc_fields W cl) as (T1 & T2 & T3 & T4 & T5 & T6 & _).
    assert (TA : s_authn (token_svc W cl) c = token_authn_method "client_secret_basic" c) by (unfold token_svc; destruct (cl_pkce cl); reflexivity).
    assert (TC : s_cls (token_svc W cl) = cTokenRequest) by (unfold token_svc; destruct (cl_pkce cl); reflexivity).
    assert (TR : s_atr (token_svc W cl) = true) by (unfold token_svc; destruct (cl_pkce cl); reflexivity).
    set (meth := if am =?s "" then s_authn (token_svc W cl) c else am).
    assert (ME : meth = "client_secret_basic" \/ meth = "client_secret_post").
    { subst meth. unfold client_authn_method in HA. rewrite TA. unfold token_authn_method.
      destruct I3 as [E|[E|E]]; rewrite E in *; injection HA as <-; cbn; auto. }
    set (kwi := if issuer c =?s "" then kw else dset "iss" (VStr (issuer c)) kw).
    assert (KW : forall p, In p ["password"; "user"; "client_secret"] -> dget p (dset "authn_endpoint" (VStr (s_endpoint_name (token_svc W cl))) kwi) = None).
    { intros p Hp. assert (Q : p <> "authn_endpoint" /\ p <> "iss" /\ p <> "state") by (cbn in Hp; intuition (subst; discriminate)).
      destruct Q as (Q1 & Q2 & Q3). rewrite dget_dset_neq by congruence. subst kwi. assert (Z : dget p kw = None).
      { subst kw. cbn [dget]. now rewrite (eqb_neq "state" p) by congruence. }
      destruct (issuer c =?s ""); [exact Z|]. rewrite dget_dset_neq by congruence. exact Z. }
    assert (GH : exists h r, get_headers (e_authn W) (token_svc W cl) req "POST" meth kwi c = (Ok (h, r), c) /\
      (dget "Authorization" (dset "Content-Type" (body_content_type "urlencoded") h) = Some ("Basic " ++ basic_token (client_id c) (client_secret c))%string \/ dget "client_secret" r = Some (VStr (client_secret c))) /\
      dget "client_id" r = Some (VStr (client_id c)) /\ NoDup (dkeys r) /\
      (forall p, In p ["grant_type"; "code"; "redirect_uri"] -> dget p r = dget p req)).
    { unfold get_headers. rewrite bind_run. unfold asks.
      assert (MM : (if meth =?s "" then s_authn (token_svc W cl) c else meth) = meth) by (destruct ME as [-> | ->]; reflexivity). rewrite MM.
      rewrite bind_run. unfold get_authn_header, authenticate. destruct ME as [-> | ->].
      - change ("client_secret_basic" =?s "") with false. change ("client_secret_basic" =?s "client_secret_basic") with true. cbn iota.
        unfold client_secret_basic, get_user, get_passwd. rewrite (KW "user"), (KW "password") by (cbn; auto). rewrite G2.
        assert (BM : basic_modify (s_cls (token_svc W cl)) (s_atr (token_svc W cl)) c req = Ok (ddel "client_secret" req)).
        { unfold basic_modify, with_or_without_client_id. rewrite TR, dget_ddel_neq, G3 by discriminate.
          change (val_eqb (VStr "authorization_code") (VStr "authorization_code")) with true. cbn iota. unfold dhas. rewrite dget_ddel_neq, G1 by discriminate. reflexivity. }
        rewrite BM. cbn [rbind]. rewrite bind_run. rewrite T3. cbn [run_headers ret]. cbn [fst snd]. unfold ret.
        eexists. eexists. split; [reflexivity|]. split; [left; reflexivity|]. split; [now rewrite dget_ddel_neq by discriminate|].
        split; [now apply NoDup_ddel|]. intros p Hp. apply dget_ddel_neq. cbn in Hp. intuition (subst; discriminate).
      - change ("client_secret_post" =?s "") with false. change ("client_secret_post" =?s "client_secret_basic") with false.
        change ("client_secret_post" =?s "client_secret_post") with true. cbn iota.
        unfold client_secret_post, post_modify. unfold dhas. rewrite G2. cbn [rbind]. rewrite bind_run. rewrite T3. cbn [run_headers fst snd]. unfold ret.
        eexists. eexists. split; [reflexivity|]. split; [right; rewrite dget_dset_neq by discriminate; exact G2|]. split; [apply dget_dset_eq|].
        split; [now apply NoDup_dset|]. intros p Hp. apply dget_dset_neq. cbn in Hp. intuition (subst; discriminate). }
    destruct GH as (h & r & GH & B1 & B2 & B3 & B4).
    assert (R : exists txt, get_request_parameters (e_authn W) (token_svc W cl) (tok_args c k (VStr code) (VStr ru)) "" "" am kw c =
      (Ok (mkinfo "POST" r ep (Some (BText txt)) (dset "Content-Type" (body_content_type "urlencoded") h)), c) /\ txt = urlencode (msg_pairs (sent_cls (token_svc W cl) meth req) r)).
    { eexists. split; [|reflexivity]. unfold get_request_parameters. cbn [String.eqb]. rewrite T1, T2.
      rewrite bind_run. unfold asks. cbv beta. fold meth. rewrite bind_run, C. rewrite bind_run. cbv beta. fold kwi.
      rewrite bind_run. change (if "" =?s "" then "POST" else "") with "POST". rewrite GH.
      rewrite bind_run. change (dget "endpoint" kw) with (@None val). cbv iota.
      unfold get_endpoint. rewrite T4, T5. change ("" =?s "") with true. cbv iota. unfold dict_get. rewrite EP.
      rewrite bind_run. unfold lift. change (get_http_url ep (sent_cls (token_svc W cl) meth req) r "POST") with (Ok ep). cbv iota.
      change ("POST" =?s "POST") with true. cbv iota. rewrite bind_run. unfold get_http_body.
      change (contains URL_ENCODED (body_content_type "urlencoded")) with true. cbv iota. unfold msg_to_urlencoded.
      assert (MR : missing_required (sent_cls (token_svc W cl) meth req) r = false).
      { unfold missing_required. assert (CR : c_req (sent_cls (token_svc W cl) meth req) = c_req cTokenRequest).
        { unfold sent_cls. rewrite TC. cbn [c_req]. destruct ME as [-> | ->]; reflexivity. }
        rewrite CR. cbn [cTokenRequest c_req existsb]. unfold dhas. rewrite (B4 "grant_type"), (B4 "code"), (B4 "redirect_uri"), G3, G4, G5, B2 by (cbn; auto). reflexivity. }
      rewrite MR. cbn [rbind]. reflexivity. }
    destruct R as (txt & R & Et). exists r, txt, (dset "Content-Type" (body_content_type "urlencoded") h). split; [exact R|].
    destruct (token_params W cl k c code ru am _ _ ep Kne Hc Hr EP R) as (_ & _ & _ & txt' & X & X1 & X2 & X3 & X4 & X5).
    cbn [i_body] in X. injection X as <-. exists txt. split; [reflexivity|]. split; [assumption|]. split; [assumption|]. split; [assumption|].
    split.
    - destruct B1 as [B1|B1]; [left; exact B1|right]. subst txt. split; apply encoded_param; auto.
    - destruct pkce as [f|]; [|exact I]. destruct PK as (P1 & it & v & P2 & P3 & P4 & P5). exists v. split; [|exact P5]. eapply X5; eauto.
  Qed.
End Token.
