(** Proofs for T_Begin.v: beginning a login succeeds. *)
From Verif Require Import Base BaseP Json JsonP Msg M_State S_State P_State M_Ctx M_Codec M_Authz M_ClientAuth M_Service M_Token M_Handler
  S_Service S_Token S_Handler S_Flow S_Trace S_Sched S_Retry P_Ctx P_Authz P_Codec P_ClientAuth P_Service P_Wire P_Token
  P_Token2 P_Handler P_Flow P_Trace P_Flow2 P_Handler2 P_Sim P_SimK P_Sched P_Retry S_Traffic S_Honest P_Honest P_Honest2 S_Begin.

Section Begin.
  Variables (k iss : string).
  Hypothesis Hk : rnd32 k.
  Hypothesis Hiss : iss <> "".
  Let i := VStr iss.
  Let Kne : k <> "" := proj1 rnd32_family k Hk.

  Lemma create_sound d rnd key : closed rnd32 d -> (exists a, rel rnd32 d a) -> created_key rnd key = k ->
    exists d', create_state rnd iss key d = (Ok k, d') /\ sound k i d'.
  Proof.
    intros CL (a & R) E. assert (O : op_ok rnd32 (Create rnd iss key)) by (cbn; now rewrite E).
    destruct (create_rel rnd32 rnd32_family d a rnd iss key R O) as [F R'].
    pose proof (closed_step rnd32 rnd32_family d _ CL O) as CL'. cbn [cstep] in CL'.
    destruct (create_state rnd iss key d) as [r d'] eqn:Ec. cbn [fst snd] in *. rewrite E in F. subst r. exists d'. split; [reflexivity|].
    split; [exact CL'|]. split; [eauto|]. destruct (create_state_effect _ _ _ _ _ _ Ec) as (_ & _ & G).
    unfold get_iss. rewrite G. rewrite (eqb_neq iss "") by exact Hiss. reflexivity.
  Qed.
  Lemma own_nonce d n : sound k i d -> exists d', store_nonce2state n k d = (Ok tt, d') /\ sound k i d'.
  Proof.
    intros S. assert (OO : own_op k (Bind "nonce" n k)) by (split; [reflexivity|apply in_nonce]).
    pose proof (own_done k Hk i d _ S OO) as D. destruct (own_step k Hk i d _ S OO) as (S1 & _). cbn [cstep] in *.
    unfold store_nonce2state. destruct (store_x2state n k "nonce" d) as [[[]|e] d']; [|discriminate]. exists d'. split; [reflexivity|exact S1].
  Qed.

  (** ** the request arguments *)
  Lemma set_state_ok rnd args kw c : sound k i (sdb c) -> issuer c = iss -> dget "state" kw = None -> dget "state" args = Some (VStr k) ->
    exists c', set_state rnd args kw c = (Ok (dset "state" (VStr k) args), c') /\ c' = set_db (sdb c') c /\ sound k i (sdb c').
  Proof.
    intros (CL & R & _) I K1 K2. unfold set_state. rewrite K1, K2, I.
    destruct (create_sound (sdb c) rnd k CL R) as (d' & E & S').
    { unfold created_key. now rewrite (eqb_neq k "") by exact Kne. }
    rewrite E. eexists. split; [reflexivity|]. split; [reflexivity|exact S'].
  Qed.
  Lemma oidc_args_ok rnd args c s l n : dget "response_type" args = Some (VStr s) -> dget "scope" args = Some (VList l) ->
    dget "nonce" args = Some n ->
    exists a, oidc_pre_construct_args rnd args c = (Ok a, c).
  Proof.
    intros R S N. unfold oidc_pre_construct_args. rewrite R. cbv beta iota zeta. rewrite S. cbn [py_in].
    destruct (existsb _ l); match goal with |- context [if ?b then _ else _] => destruct b end; eauto.
  Qed.
  Lemma challenge_ok hash unres args post kw c m n : sound k i (sdb c) -> dget "state" args = Some (VStr k) ->
    pkce_setting c n m -> In m ["S256"; "S384"; "S512"] ->
    exists a p c', add_code_challenge hash unres args post kw c = (Ok (a, p), c') /\ c' = set_db (sdb c') c /\ sound k i (sdb c').
  Proof.
    intros S St (cf & C1 & C2 & C3) Hm. unfold add_code_challenge, pkce_conf, pkce_length. rewrite C1. cbn [rbind].
    assert (LN : exists q, match dget "code_challenge_length" cf with None => Ok 64 | Some (VInt z) => Ok (Z.to_nat z) | Some _ => Err TypeError end = Ok q).
    { destruct (dget "code_challenge_length" cf) as [v|]; [destruct C2 as (z & -> & _); eauto|eauto]. }
    destruct LN as [q ->]. cbn [rbind].
    assert (MN : match dget "code_challenge_method" cf with None => Ok "S256" | Some (VStr x) => Ok x | Some _ => Err Unsupported end = Ok m).
    { destruct (dget "code_challenge_method" cf) as [v|]; [subst v; reflexivity|now subst m]. }
    rewrite MN. cbn [rbind]. assert (MM : mem_str m cc_methods = true) by (cbn in Hm; intuition (subst; reflexivity)).
    rewrite MM. rewrite St.
    destruct (on_store k iss Hk c cMessage [("code_verifier", VStr (unres q)); ("code_challenge_method", VStr m)] "pkce" S ltac:(discriminate))
      as (c1 & E & L & _).
    rewrite bind_run, E. eexists. eexists. eexists. split; [reflexivity|]. split; apply L.
  Qed.

  Lemma post_ok W req kw c w ws n : sound k i (sdb c) -> NoDup (dkeys req) ->
    (exists l, dget "scope" req = Some (VList l)) -> dget "response_type" req = Some (VList (VStr w :: ws)) ->
    dget "nonce" req = Some (VStr n) -> dget "state" req = Some (VStr k) -> dget "request_param" kw = None ->
    exists r c', oidc_authz_post (e_reqobj W) req kw c = (Ok r, c') /\ c' = set_db (sdb c') c /\ NoDup (dkeys r) /\
      (forall p, p <> "prompt" -> dget p r = dget p req).
  Proof.
    intros S U (l & Sc) Rt Nn St NK. unfold oidc_authz_post. rewrite bind_run. unfold oidc_post_construct. rewrite Sc.
    cbn [py_in]. rewrite Rt, Nn, St. set (b1 := existsb _ l). set (b2 := existsb _ l).
    assert (X : exists c1, (if b1 then if contains "id_token" w || contains "code" w then on_db (store_nonce2state n k) else ret tt else ret tt) c = (Ok tt, c1) /\
       c1 = set_db (sdb c1) c /\ sound k i (sdb c1)).
    { assert (Y : exists c1, ret tt c = (Ok tt, c1) /\ c1 = set_db (sdb c1) c /\ sound k i (sdb c1)).
      { exists c. split; [reflexivity|]. split; [now rewrite set_db_same|exact S]. }
      destruct b1; [|exact Y]. destruct (_ || _); [|exact Y]. unfold on_db. destruct (own_nonce (sdb c) n S) as (d' & E & S').
      rewrite E. eexists. split; [reflexivity|]. split; [reflexivity|exact S']. }
    destruct X as (c1 & X1 & X2 & X3). rewrite bind_run, X1.
    set (req1 := if b2 && negb (dhas "prompt" req) then dset "prompt" (strs ["consent"]) req else req).
    assert (P1 : forall p, p <> "prompt" -> dget p req1 = dget p req).
    { intros p Hp. subst req1. destruct (_ && _); [|reflexivity]. now rewrite dget_dset_neq by congruence. }
    rewrite (P1 "state") by discriminate. rewrite St.
    destruct (on_store k iss Hk c1 cAuthzRequest req1 "auth_request" X3 ltac:(discriminate)) as (c2 & E & L & _).
    rewrite bind_run, E. unfold ret, oidc_request_param. rewrite NK. exists req1, c2. split; [reflexivity|]. split.
    { destruct L as (L & _). rewrite L, X2 at 1. reflexivity. }
    split; [|exact P1]. subst req1. destruct (_ && _); [now apply NoDup_dset|exact U].
  Qed.

  (** request arguments that are enough *)
  Definition enough (args : dict val) (c : ctx) : Prop :=
    NoDup (dkeys args) /\ dget "state" args = Some (VStr k) /\ some_text (dget "response_type" args) /\
    some_text (dget "redirect_uri" args) /\ some_text (dget "nonce" args) /\ (exists l, dget "scope" args = Some (VList l)) /\
    (some_text (dget "client_id" args) \/ (dget "client_id" args = None /\ client_id c <> "")).
  Lemma some_text_shown p v cc : some_text (Some v) -> mem_str p (c_sp cc) = false -> c_json cc = [] -> skipped v = false /\ shown cc p v = Some v.
  Proof. intros (s & E & N) S J. injection E as ->. split; [destruct s; easy|]. apply shown_plain; [now rewrite J|exact S]. Qed.

  Lemma begin_construct W cl args beh c : sound k i (sdb c) -> issuer c = iss -> plain_conf (conf_of cl "authorization") ->
    (cl_pkce cl = true -> exists n m, pkce_setting c n m /\ In m ["S256"; "S384"; "S512"]) ->
    no_request_object beh -> enough args c ->
    exists req c', construct (authz_svc W cl) args (kwb beh) c = (Ok req, c') /\ c' = set_db (sdb c') c /\ missing_required cAuthzRequest req = false.
  Proof.
    intros S I [PC1 PC2] PK NR (N & A1 & A2 & A3 & A4 & (l & A5) & A6).
    destruct (authz_fields W cl) as (AF1 & AF2 & AF3 & AF4 & AF5 & _).
    generalize dependent (authz_svc W cl). intros s AF1 AF2 AF3 AF4 AF5.
    assert (KS : dget "state" (kwb beh) = None) by (destruct beh; reflexivity).
    destruct A2 as (rt & A2 & Rne). destruct A3 as (ru & A3 & Une). destruct A4 as (nn & A4 & Nne).
    assert (Pre : exists a1 c1, do_pre_construct s args (kwb beh) c = (Ok (a1, []), c1) /\ c1 = set_db (sdb c1) c /\ sound k i (sdb c1) /\
      NoDup (dkeys a1) /\ (forall p, In p ["state"; "response_type"; "redirect_uri"; "nonce"; "client_id"] -> dget p a1 = dget p args) /\
      exists l', dget "scope" a1 = Some (VList l') /\ In (VStr "openid") l').
    { unfold do_pre_construct. rewrite method_args_plain by (rewrite AF5; exact PC1). rewrite AF1. cbn [List.app run_pre].
      rewrite bind_run. unfold lift_pre at 1. rewrite bind_run.
      destruct (set_state_ok (e_state2 W) args (kwb beh) c S I KS A1) as (c1 & E1 & D1 & S1). rewrite E1. unfold ret at 1. cbn [fst snd].
      rewrite bind_run. unfold lift_pre at 1. rewrite bind_run. unfold pre_construct_pick_redirect_uri, pick_redirect_uri.
      rewrite dget_dset_neq by discriminate. rewrite A3. unfold ret at 1. cbn [fst snd].
      set (args2 := dset "redirect_uri" (VStr ru) (dset "state" (VStr k) args)).
      assert (G2 : forall p, dget p args2 = dget p args).
      { intros p. subst args2. destruct (String.eqb_spec "redirect_uri" p) as [<-|]; [rewrite dget_dset_eq; auto|]. rewrite dget_dset_neq by auto.
        destruct (String.eqb_spec "state" p) as [<-|]; [rewrite dget_dset_eq; auto|]. now rewrite dget_dset_neq by auto. }
      assert (N2 : NoDup (dkeys args2)) by (unfold args2; auto using NoDup_dset).
      rewrite bind_run. unfold oidc_pre_construct at 1. rewrite bind_run.
      destruct (oidc_args_ok (e_nonce2 W) args2 c1 rt l (VStr nn)) as (a3 & E3); [now rewrite G2|now rewrite G2|now rewrite G2|].
      rewrite E3. destruct (oidc_pre_args_spec _ _ _ _ _ E3) as (_ & U1 & U2 & U3 & U4 & U5 & _).
      rewrite G2 in U5. destruct (U5 _ A5) as (l' & V1 & V2 & _).
      assert (PP : oidc_pre_post_args [] (kwb beh) = []) by (destruct beh; reflexivity).
      unfold ret at 1. cbn [fst snd]. rewrite PP.
      assert (G3 : forall p, In p ["state"; "response_type"; "redirect_uri"; "nonce"; "client_id"] -> dget p a3 = dget p args).
      { intros p Hp. cbn in Hp. destruct Hp as [<-|[<-|[<-|[<-|[<-|[]]]]]].
        - rewrite U2, G2; [reflexivity|cbn; intuition discriminate].
        - rewrite A2. apply U4. now rewrite G2.
        - rewrite U2, G2; [reflexivity|cbn; intuition discriminate].
        - rewrite A4. apply U3. now rewrite G2.
        - rewrite U2, G2; [reflexivity|cbn; intuition discriminate]. }
      destruct (cl_pkce cl) eqn:CP; cbn [run_pre].
      - destruct (PK eq_refl) as (n & m & P1 & P2). rewrite bind_run.
        assert (P1' : pkce_setting c1 n m) by (rewrite D1; exact P1).
        destruct (challenge_ok (e_hash W) (unreserved (e_rand W)) a3 [] (kwb beh) c1 m n S1) as (a4 & p4 & c4 & E4 & D4 & S4);
          [rewrite G3 by (cbn; auto); exact A1|exact P1'|exact P2|].
        rewrite E4. cbn [fst snd]. unfold ret.
        assert (B3s : dget "state" a3 = Some (VStr k)) by (rewrite G3 by (cbn; auto); exact A1).
        destruct (add_challenge_spec _ _ _ _ _ _ _ _ _ _ B3s E4) as (n' & m' & v & -> & _ & _ & _ & _ & -> & _).
        eexists. exists c4. split; [reflexivity|]. split; [rewrite D4, D1 at 1; reflexivity|]. split; [exact S4|].
        split; [auto using NoDup_dset|]. split.
        + intros p Hp. rewrite !dget_dset_neq; [now apply G3| |]; intros <-; cbn in Hp; intuition discriminate.
        + exists l'. rewrite !dget_dset_neq by discriminate. auto.
      - unfold ret. exists a3, c1. split; [reflexivity|]. split; [exact D1|]. split; [exact S1|]. split; [auto|]. split; [exact G3|eauto]. }
    destruct Pre as (a1 & c1 & E1 & D1 & S1 & N1 & G1 & l' & B1 & B2).
    unfold construct. rewrite bind_run, E1. rewrite KS.
    assert (DS : dhas "state" a1 = true) by (unfold dhas; rewrite G1, A1 by (cbn; auto); reflexivity).
    destruct (gather_loop_total s c1 (c_par (s_cls s)) a1 DS) as [out G]. destruct (gather_loop_get _ _ _ _ _ G) as [GN GG].
    rewrite bind_run. unfold gather_request_args. rewrite G. cbn [rbind]. rewrite AF3. unfold authz_gather.
    assert (O : forall p v, dget p a1 = Some v -> dget p out = Some v) by (intros p v Hp; rewrite GG, Hp; reflexivity).
    assert (O3 : dget "redirect_uri" out = Some (VStr ru)) by (apply O; rewrite G1 by (cbn; auto); exact A3).
    unfold dhas at 1. rewrite O3. rewrite bind_run. unfold lift. rewrite AF4.
    destruct (msg_new_total cAuthzRequest out eq_refl) as [req0 E0]. rewrite E0.
    assert (M := msg_new_get _ _ _ (GN N1) E0). assert (N0 : NoDup (dkeys req0)) by (apply (msg_new_NoDup cAuthzRequest out); [constructor|exact E0]).
    assert (SK : forall x, x <> "" -> skipped (VStr x) = false) by (intros [|]; easy).
    assert (M1 : dget "state" req0 = Some (VStr k)).
    { rewrite M, (O "state" (VStr k)) by (rewrite G1 by (cbn; auto); exact A1). now rewrite SK by exact Kne. }
    assert (M2 : exists w ws, dget "response_type" req0 = Some (VList (VStr w :: ws))).
    { rewrite M, (O "response_type" (VStr rt)) by (rewrite G1 by (cbn; auto); exact A2). rewrite SK by exact Rne.
      unfold shown. change (mem_str "response_type" (c_json cAuthzRequest)) with false. change (mem_str "response_type" (c_sp cAuthzRequest)) with true. cbn iota.
      pose proof (split_on_nonnil sp rt) as NN. destruct (split_on sp rt) as [|w ws]; [congruence|]. exists w, (map VStr ws). reflexivity. }
    assert (M3 : dget "redirect_uri" req0 = Some (VStr ru)) by (rewrite M, O3, SK by exact Une; reflexivity).
    assert (M4 : dget "nonce" req0 = Some (VStr nn)).
    { rewrite M, (O "nonce" (VStr nn)) by (rewrite G1 by (cbn; auto 8); exact A4). now rewrite SK by exact Nne. }
    assert (M5 : dget "scope" req0 = Some (VList l')).
    { rewrite M, (O "scope" _ B1). assert (X : skipped (VList l') = false) by (destruct l' as [|[| | |[]| |] []]; try reflexivity; destruct B2 as [B2|[]]; discriminate).
      rewrite X. reflexivity. }
    assert (M6 : exists v, dget "client_id" req0 = Some v).
    { assert (OC : some_text (dget "client_id" out)).
      { destruct A6 as [(x & A6 & Xne)|[A6 Cne]].
        - exists x. split; [|exact Xne]. apply O. rewrite G1 by (cbn; auto 8). exact A6.
        - exists (client_id c). split; [|exact Cne]. rewrite GG, G1, A6 by (cbn; auto 8). rewrite AF4.
          change (mem_str "client_id" (c_par cAuthzRequest)) with true. cbn iota. unfold gathered. rewrite D1.
          unfold first_truthy. cbn [find]. change (ctx_get (set_db (sdb c1) c) "client_id") with (Some (VStr (client_id c))).
          cbn [otruthy]. destruct (client_id c); [easy|reflexivity]. }
      destruct OC as (x & OC & Xne). rewrite M, OC, SK by exact Xne. eexists. reflexivity. }
    unfold do_post_construct. rewrite method_args_plain by (rewrite AF5; exact PC2). rewrite AF2. cbn [run_post].
    match goal with |- context [oidc_authz_post _ _ ?K] => set (kw2 := K) end.
    assert (NP : dget "request_param" kw2 = None).
    { subst kw2. destruct beh as [b|]; [|reflexivity]. cbn [kwb dget]. change ("behaviour_args" =?s "behaviour_args") with true. cbn iota.
      rewrite dget_dupdate. rewrite (proj2 (dget_None_In _ _)); [reflexivity|]. unfold dkeys. rewrite map_rev. intros X. apply in_rev in X. now apply NR. }
    destruct M2 as (w & ws & M2).
    destruct (post_ok W req0 kw2 c1 w ws nn S1 N0 (ex_intro _ l' M5) M2 M4 M1 NP) as (r & c2 & E2 & D2 & N2 & G2).
    rewrite bind_run, E2. unfold ret. exists r, c2. split; [reflexivity|]. split; [rewrite D2, D1 at 1; reflexivity|].
    destruct M6 as [v6 M6]. unfold missing_required. cbn [cAuthzRequest c_req existsb]. unfold dhas. rewrite !G2 by discriminate. now rewrite M2, M3, M5, M6.
  Qed.
End Begin.

Lemma begin_args_get W c reqs args p base : authz_request_args W c reqs = Ok args -> uniq reqs -> config_uniq c ->
  (exists ru sc rt, args = dupdate (dupdate [("redirect_uri", ru); ("scope", sc); ("response_type", rt); ("nonce", VStr (e_nonce W))] (config_request_args c)) reqs /\
     dget p [("redirect_uri", ru); ("scope", sc); ("response_type", rt); ("nonce", VStr (e_nonce W))] = base) ->
  dget p args = chosen c reqs p base.
Proof.
  intros _ U CU (ru & sc & rt & -> & B). rewrite !dget_dupdate. unfold chosen, configured, config_request_args.
  rewrite (dget_rev_NoDup _ _ U). destruct (dget p reqs); [reflexivity|].
  destruct (dget "request_args" (config c)) as [[| | | | |dd]|] eqn:Ed; try exact B.
  rewrite (dget_rev_NoDup _ _ (CU _ Ed)). now destruct (dget p dd).
Qed.
Lemma chosen_some c reqs p base : chosen c reqs p base = match chosen c reqs p None with Some v => Some v | None => base end.
Proof. unfold chosen. destruct (dget p reqs); [reflexivity|]. now destruct (configured c p). Qed.

Lemma url_ok ep cls req : missing_required cls req = false -> exists u, get_http_url ep cls req "GET" = Ok u.
Proof.
  intros M. unfold get_http_url. change (mem_str "GET" ["GET"; "DELETE"]) with true. cbv iota. destruct req as [|e r]; [eauto|].
  set (req := e :: r) in *. clearbody req. set (o := map _ _). clearbody o. unfold msg_to_urlencoded.
  assert (X : missing_required cls (dupdate req o) = false).
  { unfold missing_required in *. induction (c_req cls) as [|p l IH]; [reflexivity|]. cbn [existsb] in *. apply orb_false_iff in M. destruct M as [M1 M2].
    rewrite (IH M2), orb_false_r. unfold dhas in *. rewrite dget_dupdate. destruct (dget p (rev o)); [reflexivity|exact M1]. }
  rewrite X. cbn [rbind]. eauto.
Qed.
Lemma login_begins W cl reqs beh c : rnd32 (e_state W) -> plain_conf (conf_of cl "authorization") -> set_up cl c -> fair_args W c reqs -> no_request_object beh ->
  closed rnd32 (sdb c) -> (exists a, rel rnd32 (sdb c) a) ->
  exists u c', init_authorization W cl reqs beh c = (Ok (u, e_state W), c').
Proof.
  intros Hk PC (S1 & S2 & (ep & S3) & (u0 & us & S4 & S4') & S5 & (l0 & S6) & S7) (F1 & F2 & F3 & F4 & F5) NR CL R.
  set (k := e_state W). assert (Kne : k <> "") by (apply rnd32_family; exact Hk).
  destruct S5 as (rt0 & S5 & S5').
  (* the arguments *)
  assert (A : exists args, authz_request_args W c reqs = Ok args /\ NoDup (dkeys args) /\ some_text (dget "response_type" args) /\
    some_text (dget "redirect_uri" args) /\ some_text (dget "nonce" args) /\ (exists l, dget "scope" args = Some (VList l)) /\
    (some_text (dget "client_id" args) \/ dget "client_id" args = None)).
  { unfold authz_request_args. assert (RT : response_type_of c reqs = Ok (match dget "response_type" reqs with Some v => v | None => VStr rt0 end)).
    { unfold response_type_of, dict_get. unfold first_response_type in S5. destruct (dget "response_types" (behaviour c)) as [[| | | |[|v r]|]|]; try discriminate.
      injection S5 as ->. reflexivity. }
    rewrite RT. cbn [rbind]. unfold pick_redirect_uri. set (rt1 := match dget "response_type" reqs with Some v => v | None => VStr rt0 end) in *.
    rewrite S4. set (ru1 := match dget "redirect_uri" reqs with Some v => v | None => VStr u0 end).
    assert (RU : match dget "redirect_uri" reqs with Some v => Ok v | None => Ok (VStr u0) end = Ok ru1) by (subst ru1; now destruct (dget "redirect_uri" reqs)).
    rewrite RU. cbn [rbind]. unfold dict_get. rewrite S6. cbn [rbind].
    set (base := [("redirect_uri", ru1); ("scope", VList l0); ("response_type", rt1); ("nonce", VStr (e_nonce W))]).
    set (args := dupdate (dupdate base (config_request_args c)) reqs).
    assert (G : forall p, dget p args = match chosen c reqs p None with Some v => Some v | None => dget p base end).
    { intros p. rewrite <- chosen_some. subst args. rewrite !dget_dupdate. unfold chosen, configured, config_request_args.
      rewrite (dget_rev_NoDup _ _ F1). destruct (dget p reqs); [reflexivity|].
      destruct (dget "request_args" (config c)) as [[| | | | |dd]|] eqn:Ed; try reflexivity.
      rewrite (dget_rev_NoDup _ _ (F2 _ Ed)). now destruct (dget p dd). }
    exists args. split; [reflexivity|]. split.
    { subst args base. apply NoDup_dupdate, NoDup_dupdate. cbn. repeat (constructor; [cbn; intuition discriminate|]). constructor. }
    assert (T : forall p, In p ["redirect_uri"; "response_type"; "nonce"; "client_id"] -> forall v, dget p base = v -> (chosen c reqs p None = None -> some_text v) -> some_text (dget p args)).
    { intros p Hp v Hv Hs. rewrite G. destruct (chosen c reqs p None) eqn:E; [eapply F4; eauto|]. rewrite Hv. now apply Hs. }
    split; [apply (T "response_type") with (v := Some rt1); [cbn; auto|reflexivity|]|].
    { intros X. subst rt1. unfold chosen in X. destruct (dget "response_type" reqs); [discriminate|]. exists rt0. auto. }
    split; [apply (T "redirect_uri") with (v := Some ru1); [cbn; auto|reflexivity|]|].
    { intros X. subst ru1. unfold chosen in X. destruct (dget "redirect_uri" reqs); [discriminate|]. exists u0. auto. }
    split; [apply (T "nonce") with (v := Some (VStr (e_nonce W))); [cbn; auto|reflexivity|]|].
    { intros _. eexists. split; [reflexivity|exact F3]. }
    split.
    { rewrite G. destruct (chosen c reqs "scope" None) eqn:E; [destruct (F5 _ eq_refl) as [l ->]; eauto|]. exists l0. reflexivity. }
    rewrite G. destruct (chosen c reqs "client_id" None) eqn:E; [left; eapply F4; eauto; cbn; auto|right; reflexivity]. }
  destruct A as (args & A0 & A1 & A2 & A3 & A4 & A5 & A6).
  unfold init_authorization. rewrite bind_run, A0. rewrite bind_run. unfold asks.
  rewrite bind_run. unfold on_db at 1.
  destruct (create_sound k (issuer c) Hk S1 (sdb c) k "" CL R eq_refl) as (d1 & E1 & SD1). fold k. rewrite E1.
  rewrite bind_run. unfold on_db at 1. cbn [sdb set_db].
  destruct (own_nonce k (issuer c) Hk d1 (e_nonce W) SD1) as (d2 & E2 & SD2). rewrite E2.
  rewrite bind_run. fold (kwb beh). set (c2 := set_db d2 (set_db d1 c)).
  destruct (authz_fields W cl) as (_ & _ & _ & AF4 & _ & AF6 & AF7 & AF8 & AF9 & AF10).
  assert (EN : enough k (dset "state" (VStr k) args) c2).
  { split; [now apply NoDup_dset|]. split; [apply dget_dset_eq|]. rewrite !dget_dset_neq by discriminate.
    split; [exact A2|]. split; [exact A3|]. split; [exact A4|]. split; [exact A5|]. destruct A6 as [A6|A6]; [now left|right]. split; [exact A6|exact S2]. }
  destruct (begin_construct k (issuer c) Hk S1 W cl (dset "state" (VStr k) args) beh c2 SD2 eq_refl PC S7 NR EN) as (req & c3 & E3 & D3 & MR).
  assert (Q : exists u, get_request_parameters (e_authn W) (authz_svc W cl) (dset "state" (VStr k) args) "" "" "" (kwb beh) c2 = (Ok (mkinfo "GET" req u None []), c3)).
  { unfold get_request_parameters. cbn [String.eqb]. rewrite AF6. rewrite bind_run. unfold asks. rewrite AF8. cbv beta.
    rewrite bind_run, E3. rewrite bind_run. rewrite bind_run. unfold get_headers. rewrite bind_run. unfold asks. cbn [String.eqb]. rewrite AF8.
    rewrite bind_run. unfold get_authn_header. cbn [String.eqb]. cbn [fst snd]. rewrite bind_run, AF7. cbn [run_headers]. unfold ret at 1 2. cbn [fst snd].
    rewrite bind_run. assert (KE : dget "endpoint" (kwb beh) = None) by (destruct beh; reflexivity). rewrite KE.
    unfold get_endpoint. rewrite AF9, AF10. cbn [String.eqb]. unfold dict_get. rewrite D3. cbn [provider_info set_db c2]. change (provider_info c2) with (provider_info c). rewrite S3.
    assert (SC : sent_cls (authz_svc W cl) "" req = cAuthzRequest).
    { unfold sent_cls. rewrite AF4. change ("" =?s "bearer_header") with false. change ("" =?s "bearer_body") with false. cbn [andb orb]. reflexivity. }
    change (if "" =?s "" then "" else "") with "". rewrite SC. destruct (url_ok ep cAuthzRequest req MR) as [u UK]. exists u.
    rewrite bind_run. unfold lift. change (if "" =?s "" then "GET" else "") with "GET". rewrite UK. reflexivity. }
  destruct Q as (u & Q). rewrite Q. unfold ret. cbn [i_url]. eauto.
Qed.
