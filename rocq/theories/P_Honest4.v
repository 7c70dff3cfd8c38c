(** Proofs for T_Honest.v: the whole login. *)
From Verif Require Import Base BaseP Json JsonP Msg M_State S_State P_State M_Ctx M_Codec M_Authz M_ClientAuth M_Service M_Token M_Handler
  S_Service S_Token S_Handler S_Flow S_Trace S_Sched S_Retry P_Ctx P_Authz P_Codec P_ClientAuth P_Service P_Wire P_Token
  P_Token2 P_Handler P_Flow P_Trace P_Flow2 P_Handler2 P_Handler3 P_Handler4 P_Sim P_SimK P_Sched P_Retry S_Traffic S_Honest P_Honest P_Honest2 P_Honest3.

From Verif Require P_Route.

Section Whole.
  Variables (k iss : string).
  Hypothesis Hk : rnd32 k.
  Let i := VStr iss.
  Let Kne : k <> "" := proj1 rnd32_family k Hk.

  Lemma subject_ok c idt n sub info : sound k i (sdb c) -> id_claims n sub idt ->
    exists c', bind_subject (VDict idt) info k c = (Ok tt, c').
  Proof.
    intros S (N1 & N2 & N3). unfold bind_subject. destruct idt as [|kv r]; [discriminate|]. set (idt := kv :: r) in *. clearbody idt.
    rewrite bind_run. unfold asks. rewrite bind_run.
    assert (X : exists c1, (match sid_support c, dget "sid" idt with true, Some v => bind_value "session id" v k | _, _ => ret tt end) c = (Ok tt, c1) /\ sound k i (sdb c1)).
    { destruct (sid_support c); [|exists c; split; [reflexivity|exact S]]. destruct N3 as [-> | (s & ->)]; [exists c; split; [reflexivity|exact S]|].
      cbn [bind_value]. destruct (on_bind k iss Hk c "session id" s S in_sid ltac:(discriminate)) as (c1 & E & L). exists c1. split; [exact E|apply L]. }
    destruct X as (c1 & -> & S1). rewrite bind_run. unfold dict_get. rewrite N2. unfold lift. cbn [bind_value].
    destruct (on_bind k iss Hk c1 "subject id" sub S1 ltac:(cbn; tauto) ltac:(discriminate)) as (c2 & E & L). eauto.
  Qed.

  Lemma honest_finalize W cl c resp collect code ru pkce n sub tok tm um idt rq :
    sound k i (sdb c) -> has_service cl "accesstoken" = true ->
    (has_service cl "userinfo" = true -> dget "pre_construct" (conf_of cl "userinfo") = None) ->
    code_response k code resp -> (forall ar, msg_new cAuthzResponse resp = Ok ar -> verifies W "authorization" ar ar) ->
    get_item (sdb c) cAuthzRequest "auth_request" k = Ok rq -> dget "redirect_uri" rq = Some (VStr ru) -> ru <> "" ->
    dget "response_type" rq = Some (VList [VStr "code"]) ->
    uses_secret c -> pkce_ready k cl pkce (sdb c) -> token_endpoint_honest W c code ru pkce tm ->
    token_answer tok tm -> id_claims n sub idt -> get_state_by_nonce (sdb c) n = Ok k ->
    (forall m, msg_new cTokenResponse tm = Ok m -> verifies W "accesstoken" m (dset (verified "id_token") (VDict idt) m)) ->
    get_item (sdb c) cMessage "refresh_token_response" k = Err (KeyError "refresh_token_response") ->
    (has_service cl "userinfo" = true -> userinfo_endpoint_honest W c tok um /\ about_user sub um /\
       (forall m, msg_new cMessage um = Ok m -> verifies W "userinfo" m m)) ->
    exists info ss c', finalize W cl iss resp collect c = (Ok (FOk info (VStr k) (VStr tok) (VDict idt) ss), c') /\
      (has_service cl "userinfo" = true -> msg_new cMessage um = Ok info).
  Proof.
    intros S HT HPC CR VA RQ RU Rne RT US PK TE TA IC NC VT RF UI.
    destruct (msg_new_total cAuthzResponse resp eq_refl) as [ar0 Ear].
    destruct (front_stage k iss Hk W (e_now W) resp code ar0 c S CR Ear (VA _ Ear)) as (A1 & A2 & A3 & c1 & F & L1 & I1).
    assert (E1 : c1 = set_db (sdb c1) c) by apply L1.
    assert (RQ1 : get_item (sdb c1) cAuthzRequest "auth_request" k = Ok rq).
    { destruct L1 as (_ & _ & L1 & _). rewrite L1; [exact RQ| |discriminate]. cbn. intuition discriminate. }
    assert (AR1 : exists ar, get_item (sdb c1) cAuthzResponse "auth_response" k = Ok ar /\ dget "code" ar = Some (VStr code)).
    { destruct (msg_new_total cAuthzResponse (msg_to_dict cAuthzResponse ar0) eq_refl) as [ar Ea]. exists ar. split; [rewrite I1; exact Ea|].
      eapply (stored_param cAuthzResponse cAuthzResponse ar0); [|exact Ea|reflexivity|reflexivity|reflexivity|exact A2|].
      - apply (msg_new_NoDup cAuthzResponse resp); [constructor|exact Ear].
      - destruct CR as (_ & _ & _ & X & _). exact X. }
    assert (PK1 : pkce_ready k cl pkce (sdb c1)).
    { destruct pkce as [f|]; [|exact PK]. destruct PK as (P1 & it & v & P2 & P3). split; [exact P1|]. exists it, v. split; [|exact P3].
      destruct L1 as (_ & _ & L1 & _). rewrite L1; [exact P2| |discriminate]. cbn. intuition discriminate. }
    assert (US1 : uses_secret c1) by (rewrite E1; exact US).
    assert (TE1 : token_endpoint_honest W c1 code ru pkce tm) by (rewrite E1; exact TE).
    assert (NC1 : get_state_by_nonce (sdb c1) n = Ok k) by (apply L1; exact NC).
    assert (Cne : code <> "") by (destruct CR as (_ & _ & _ & X & _); exact X).
    destruct (token_stage k iss Hk W cl c1 code ru pkce n sub tok tm idt (proj1 (proj2 L1)) HT AR1 Cne (ex_intro _ rq (conj RQ1 RU)) Rne US1 PK1 TE1 TA IC NC1 VT)
      as (m & c2 & T1 & L2 & M1 & M2 & it & J1 & J2 & J3).
    assert (E2 : c2 = set_db (sdb c2) c) by (destruct L2 as (L2 & _); rewrite L2, E1 at 1; reflexivity).
    assert (Tne : tok <> "") by (destruct TA as (_ & _ & X & _); exact X).
    assert (GT : get_access_and_id_token W cl ar0 k collect c1 = (Ok (mktokens (VStr tok) (VDict idt)), c2)).
    { unfold get_access_and_id_token. rewrite bind_run. unfold read_db. rewrite RQ1. rewrite bind_run. unfold lift. rewrite RT. rewrite bind_run.
      change (one_of [VStr "code"] [["id_token"]; ["id_token"; "token"]; ["code"; "id_token"; "token"]]) with false. cbv iota.
      change (one_of [VStr "code"] [["token"]; ["id_token"; "token"]; ["code"; "token"]; ["code"; "id_token"; "token"]]) with false. cbv iota.
      change (one_of [VStr "code"] [["code"]; ["code"; "id_token"]]) with true. cbv iota.
      unfold tokens_from_endpoint. rewrite bind_run, T1. cbn [msg_of]. rewrite bind_run. unfold lift, dict_get. rewrite M1, M2. reflexivity. }
    assert (INFO : exists info c3, (if has_service cl "userinfo" && truthy (VStr tok) then
        r <- get_user_info W cl k tok ;; ret (msg_of r)
      else match VDict idt with VDict (kv :: r) => ret (userinfo_in_id_token (kv :: r)) | _ => ret [] end) c2 = (Ok info, c3) /\
      sound k i (sdb c3) /\ (has_service cl "userinfo" = true -> msg_new cMessage um = Ok info)).
    { rewrite truthy_str by exact Tne. destruct (has_service cl "userinfo") eqn:HU; cbn [andb].
      - destruct (UI eq_refl) as (UE & AU & VU).
        assert (UE2 : userinfo_endpoint_honest W c2 tok um) by (rewrite E2; exact UE).
        assert (RF2 : get_item (sdb c2) cMessage "refresh_token_response" k = Err (KeyError "refresh_token_response")).
        { destruct L1 as (_ & _ & L1 & _). destruct L2 as (_ & _ & L2 & _). rewrite L2, L1; [exact RF| | | |]; cbn; intuition discriminate. }
        destruct (userinfo_stage k iss Hk W cl c2 sub tok um idt (proj1 (proj2 L2)) HU (HPC eq_refl) Tne (ex_intro _ it (conj J1 J3)) RF2 (proj1 (proj2 IC)) UE2 AU VU)
          as (mu & c3 & U1 & U2 & U3).
        exists mu, c3. rewrite bind_run, U1. split; [reflexivity|]. split; [apply U3|auto].
      - destruct idt as [|kv r]; [destruct IC; discriminate|]. exists (userinfo_in_id_token (kv :: r)), c2. split; [reflexivity|]. split; [apply L2|discriminate]. }
    destruct INFO as (info & c3 & U1 & U2 & U3).
    destruct (subject_ok c3 idt n sub info U2 IC) as (c4 & B).
    exists info. eexists. exists c4. split; [|exact U3].
    unfold finalize. rewrite bind_run, F. unfold is_error_message. rewrite A3, A1. rewrite bind_run, GT. rewrite bind_run. cbn [t_access t_id].
    rewrite U1. rewrite bind_run, B. reflexivity.
  Qed.
End Whole.

(** ** the nonce *)
Lemma nonce_stays ops n : forall d, Forall (op_ok rnd32) ops -> (forall x, In x ops -> is_remove x = false /\ forall k, x <> Bind "nonce" n k) ->
  get_state_by_nonce (snd (crun d ops)) n = get_state_by_nonce d n.
Proof.
  induction ops as [|x ops IH]; intros d F H; [reflexivity|]. inversion F; subst. cbn [crun].
  destruct (H x (or_introl eq_refl)) as [H1' H2'].
  pose proof (index_isolated rnd32 d x "nonce" n rnd32_family H2 in_nonce H1' H2') as E.
  destruct (cstep d x) as [y d1]. cbn [snd] in *. specialize (IH d1 H3 (fun o X => H o (or_intror X))).
  destruct (crun d1 ops). cbn [snd] in *. rewrite IH. exact E.
Qed.
Lemma call_nonce cl c0 o n k : call_op cl c0 o (Bind "nonce" n k) -> exists W reqs beh, o = CInit W reqs beh /\ uses_nonce c0 W reqs n.
Proof.
  intros C. destruct o; cbn in C.
  - exists W, reqs, beh. split; [reflexivity|]. now destruct C as (_ & _ & C).
  - exfalso. destruct C as [(s & _ & [(? & ? & ? & D)|(? & [[(? & ? & D)|(? & ? & D)]|(? & ? & D)])])|(? & ? & ? & ? & ? & ? & ? & ? & ? & ? & ? & ? & ? & ? & [(? & ? & [(? & D)|(? & D)])|(? & ? & D)])]; discriminate.
  - destruct C as (s & _ & ? & ? & ? & D). discriminate.
  - destruct C as [(? & ? & D)|(? & ? & D)]; discriminate.
  - destruct C as (? & ? & D); discriminate.
  - destruct C as (? & ? & D). discriminate.
  - destruct C as (? & D). discriminate.
  - discriminate.
Qed.
Lemma call_remove cl c0 o k : call_op cl c0 o (Remove k) -> o = CClear k.
Proof.
  intros C. destruct o; cbn in C.
  - contradiction.
  - exfalso. destruct C as [(s & _ & [(? & ? & ? & D)|(? & [[(? & ? & D)|(? & ? & D)]|(? & ? & D)])])|(? & ? & ? & ? & ? & ? & ? & ? & ? & ? & ? & ? & ? & ? & [(? & ? & [(? & D)|(? & D)])|(? & ? & D)])]; discriminate.
  - destruct C as (s & _ & ? & ? & ? & D). discriminate.
  - destruct C as [(? & ? & D)|(? & ? & D)]; discriminate.
  - destruct C as (? & ? & D); discriminate.
  - destruct C as (? & ? & D). discriminate.
  - destruct C as (? & D). discriminate.
  - now injection C as ->.
Qed.
Lemma nonce_still cl os c0 c1 n : plain_client cl -> Forall call_ok os -> closed rnd32 (sdb c1) -> c1 = set_db (sdb c1) c0 ->
  (forall o, In o os -> no_other_login c0 n o) ->
  get_state_by_nonce (sdb (run_calls cl os c1)) n = get_state_by_nonce (sdb c1) n.
Proof.
  intros PC OK CL E H. destruct (calls_write_from c0 cl os PC OK c1 CL E) as (_ & ops & F & W). rewrite W.
  apply nonce_stays.
  - eapply Forall_impl; [|exact F]. cbn; tauto.
  - intros x Hx. rewrite Forall_forall in F. destruct (F x Hx) as (_ & o & Ho & Hc). specialize (H o Ho). split.
    + destruct x; try reflexivity. apply call_remove in Hc. subst o. contradiction.
    + intros k ->. apply call_nonce in Hc. destruct Hc as (W' & r & b & -> & U). exact (H U).
Qed.

(** ** the login as begun *)
Lemma begun cl os0 os1 c0 W0 reqs beh u k c1 : plain_client cl -> sdb c0 = [] -> Forall call_ok os0 -> Forall call_ok os1 -> rnd32 (e_state W0) ->
  (forall m v, e_hash W0 m v <> "") -> init_authorization W0 cl reqs beh (run_calls cl os0 c0) = (Ok (u, k), c1) ->
  (forall o, In o os1 -> leaves k o) -> issuer c0 <> "" ->
  let c := run_calls cl os1 c1 in
  rnd32 k /\ k = e_state W0 /\ sound k (VStr (issuer c0)) (sdb c) /\ c = set_db (sdb c) c0 /\ c1 = set_db (sdb c1) c0 /\ closed rnd32 (sdb c1) /\
  get_item (sdb c) cMessage "refresh_token_response" k = Err (KeyError "refresh_token_response") /\
  (forall cc t, ~ In t response_items -> get_item (sdb c) cc t k = get_item (sdb c1) cc t k) /\
  exists req, NoDup (dkeys req) /\ (forall cc, get_item (sdb c1) cc "auth_request" k = msg_new cc (msg_to_dict cAuthzRequest req)) /\
    (cl_pkce cl = true -> pkce_bound W0 c0 req (sdb c1) k).
Proof.
  intros PC E0 OK0 OK1 K HH H LV IS c.
  pose proof (closed_reach cl os0 c0 PC OK0 E0) as CL0.
  assert (CL1 : closed rnd32 (sdb c1)) by (eapply init_closed; eauto).
  assert (HK0 : run_calls cl os0 c0 = set_db (sdb (run_calls cl os0 c0)) c0) by (apply history_keeps; auto; rewrite E0; apply closed_nil).
  destruct (init_spec rnd32 _ _ _ _ _ _ _ _ rnd32_family K (proj1 PC) HH H)
    as (-> & args & req & ep0 & A & B1 & B2 & B3 & B4 & B5 & B6 & B7 & B8 & B9 & B10 & B11 & _ & _ & _ & B12 & C4 & _).
  assert (Sne : e_state W0 <> "") by (destruct rnd32_family as [X _]; now apply X).
  assert (HK1 : c1 = set_db (sdb c1) c0) by (rewrite B12 at 1; rewrite HK0; reflexivity).
  assert (HK2 : c = set_db (sdb c) c0).
  { unfold c. rewrite (history_keeps cl os1 c1 PC OK1 CL1) at 1. rewrite HK1 at 2. reflexivity. }
  assert (IS1 : issuer (run_calls cl os0 c0) = issuer c0) by (rewrite HK0; reflexivity).
  rewrite IS1 in B7. specialize (B7 IS).
  assert (GI : get_iss (sdb c) (e_state W0) = Ok (VStr (issuer c0))) by (apply P_Route.calls_iss; auto).
  assert (ALL : c = run_calls cl (os0 ++ CInit W0 reqs beh :: os1) c0).
  { rewrite P_Route.run_calls_app. change (CInit W0 reqs beh :: os1) with ([CInit W0 reqs beh] ++ os1). rewrite P_Route.run_calls_app.
    unfold run_calls at 2. cbn [fold_left run_call]. rewrite H. reflexivity. }
  assert (OKA : Forall call_ok (os0 ++ CInit W0 reqs beh :: os1)) by (apply Forall_app; split; [exact OK0|constructor; [exact K|exact OK1]]).
  assert (SO : sound (e_state W0) (VStr (issuer c0)) (sdb c)) by (rewrite ALL in *; apply reach_sound; auto).
  assert (SS : exists s, get_state (sdb c1) (e_state W0) = Ok s).
  { unfold get_iss in B7. destruct (get_state (sdb c1) (e_state W0)); [eauto|discriminate]. }
  split; [exact K|]. split; [reflexivity|]. split; [exact SO|]. split; [exact HK2|]. split; [exact HK1|]. split; [exact CL1|].
  split; [rewrite ALL in *; eapply never_refreshed; eauto|]. split.
  - intros cc t Ht. unfold c. now apply calls_keep.
  - exists req. split; [exact B3|]. split; [exact B5|]. intros P. destruct (C4 P) as (n & m & v & D). rewrite HK0 in D. exists n, m, v. exact D.
Qed.
Lemma stored_text req rq p v : NoDup (dkeys req) -> msg_new cAuthzRequest (msg_to_dict cAuthzRequest req) = Ok rq ->
  mem_str p (c_sp cAuthzRequest) = false -> mem_str p (c_json cAuthzRequest) = false -> dget p rq = Some (VStr v) -> dget p req = Some (VStr v).
Proof.
  intros N E S J H. rewrite (msg_new_get _ _ rq ltac:(rewrite ser_keys; exact N) E) in H. rewrite ser_get in H.
  destruct (dget p req) as [w|]; [|destruct (c_default cAuthzRequest) eqn:D; [discriminate|discriminate]].
  unfold ser_param in H. rewrite J, S in H. cbn [snd] in H. destruct (skipped w); [discriminate|]. unfold shown in H. rewrite J, S in H. exact H.
Qed.

Section Main.
  Variables (cl : client) (os0 os1 : list call) (c0 : ctx) (W0 W : env) (reqs : dict val) (beh : option (dict val)) (u k : string) (c1 : ctx).
  Hypothesis PC : plain_client cl.
  Hypothesis E0 : sdb c0 = [].
  Hypothesis OK0 : Forall call_ok os0.
  Hypothesis OK1 : Forall call_ok os1.
  Hypothesis K : rnd32 (e_state W0).
  Hypothesis HH : forall m v, e_hash W0 m v <> "".
  Hypothesis H : init_authorization W0 cl reqs beh (run_calls cl os0 c0) = (Ok (u, k), c1).
  Hypothesis LV : forall o, In o os1 -> leaves k o.
  Hypothesis IS : issuer c0 <> "".

  Lemma login_completes resp collect code ru n sub tok tm um idt rq ch meth :
    get_item (sdb c1) cAuthzRequest "auth_request" k = Ok rq -> dget "redirect_uri" rq = Some (VStr ru) -> ru <> "" ->
    dget "response_type" rq = Some (VList [VStr "code"]) ->
    (cl_pkce cl = true -> dget "code_challenge" rq = Some (VStr ch) /\ dget "code_challenge_method" rq = Some (VStr meth) /\
       exists len m, pkce_setting c0 len m /\ 0 < len) ->
    has_service cl "accesstoken" = true -> uses_secret c0 ->
    code_response k code resp -> (forall ar, msg_new cAuthzResponse resp = Ok ar -> verifies W "authorization" ar ar) ->
    token_endpoint_honest W c0 code ru (if cl_pkce cl then Some (pkce_check (e_hash W0) ch meth) else None) tm ->
    token_answer tok tm -> id_claims n sub idt ->
    (forall m, msg_new cTokenResponse tm = Ok m -> verifies W "accesstoken" m (dset (verified "id_token") (VDict idt) m)) ->
    get_state_by_nonce (sdb (run_calls cl os1 c1)) n = Ok k ->
    (has_service cl "userinfo" = true -> dget "pre_construct" (conf_of cl "userinfo") = None /\ userinfo_endpoint_honest W c0 tok um /\ about_user sub um /\
       (forall m, msg_new cMessage um = Ok m -> verifies W "userinfo" m m)) ->
    exists info ss c', finalize W cl (issuer c0) resp collect (run_calls cl os1 c1) = (Ok (FOk info (VStr k) (VStr tok) (VDict idt) ss), c') /\
      (has_service cl "userinfo" = true -> msg_new cMessage um = Ok info).
  Proof.
    intros RQ RU Rne RT PK HT US CR VA TE TA IC VT NC UI.
    destruct (begun cl os0 os1 c0 W0 reqs beh u k c1 PC E0 OK0 OK1 K HH H LV IS) as (Hk & Ek & S & HC & _ & _ & RF & KEEP & req & N & Q & P).
    set (c := run_calls cl os1 c1) in *.
    assert (PR : pkce_ready k cl (if cl_pkce cl then Some (pkce_check (e_hash W0) ch meth) else None) (sdb c)).
    { destruct (cl_pkce cl) eqn:EP; [|exact EP]. split; [exact EP|]. destruct (PK eq_refl) as (P1 & P2 & len & m0 & P3 & P4).
      destruct (P eq_refl) as (len' & m & v & D1 & D2 & D3 & D4 & D5 & D6). rewrite Q in RQ.
      apply (stored_text req rq "code_challenge" _ N RQ eq_refl eq_refl) in P1. apply (stored_text req rq "code_challenge_method" _ N RQ eq_refl eq_refl) in P2.
      rewrite D4 in P1. rewrite D5 in P2. assert (X1 : meth = m) by congruence. assert (X2 : ch = b64e (e_hash W0 m v)) by congruence. clear P1 P2.
      assert (X3 : len' = len).
      { destruct D1 as (cf & F1 & F2 & _), P3 as (cf' & G1 & G2 & _). rewrite F1 in G1. injection G1 as <-.
        destruct (dget "code_challenge_length" cf) as [x|]; [|congruence]. destruct F2 as (z & -> & ->), G2 as (z' & Z & ->). congruence. }
      assert (Vne : v <> "").
      { intros C. rewrite C in D2. pose proof (unreserved_length (e_rand W0) len') as L. rewrite <- D2 in L. cbn in L. lia. }
      destruct (msg_new_total cMessage [("code_verifier", VStr v); ("code_challenge_method", VStr m)] eq_refl) as [it Hit].
      exists it, v. split; [rewrite KEEP by (cbn; intuition discriminate); rewrite D6; exact Hit|]. split.
      - eapply (msg_new_get' cMessage); [reflexivity| |exact Hit|reflexivity|reflexivity|exact Vne].
        unfold uniq. cbn. repeat constructor; cbn; intuition discriminate.
      - split; [exact Vne|]. unfold pkce_check. cbn [fst snd]. now rewrite X1, X2. }
    assert (RQ' : get_item (sdb c) cAuthzRequest "auth_request" k = Ok rq) by (rewrite KEEP by (cbn; intuition discriminate); exact RQ).
    assert (US' : uses_secret c) by (rewrite HC; exact US).
    assert (TE' : token_endpoint_honest W c code ru (if cl_pkce cl then Some (pkce_check (e_hash W0) ch meth) else None) tm) by (rewrite HC; exact TE).
    assert (UI' : has_service cl "userinfo" = true -> userinfo_endpoint_honest W c tok um /\ about_user sub um /\
       (forall m, msg_new cMessage um = Ok m -> verifies W "userinfo" m m)) by (rewrite HC; intros X; exact (proj2 (UI X))).
    exact (honest_finalize k (issuer c0) Hk W cl c resp collect code ru _ n sub tok tm um idt rq S HT (fun X => proj1 (UI X)) CR VA RQ' RU Rne RT US' PR TE' TA IC NC VT RF UI').
  Qed.
End Main.
