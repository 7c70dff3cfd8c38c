(** Proofs for T_After.v: what is stored when a login is complete, and afterwards. *)
From Verif Require Import Base BaseP Json JsonP Msg M_State S_State P_State M_Ctx M_Codec M_Authz M_ClientAuth M_Service M_Token M_Handler
  S_Service S_Token S_Handler S_Flow S_Trace S_Sched S_Retry P_Ctx P_Authz P_Codec P_ClientAuth P_Service P_Wire P_Token
  P_Token2 P_Handler P_Flow P_Trace P_Flow2 P_Handler2 P_Handler3 P_Handler4 P_Sim P_SimK P_Sched P_Retry S_Traffic S_Honest P_Honest P_Honest2 P_Honest3 P_Honest4
  S_After.
From Verif Require P_Route P_Login.

Notation any := P_Trace.any.

(** ** a call that spares the tokens *)
Lemma spares_leaves k o : spares k o -> leaves k o.
Proof.
  intros [_ S]. destruct o; cbn; auto; destruct S as [S|[]]; unfold about in S; cbn in S; intros E; rewrite E, eqb_refl in S; discriminate.
Qed.
Lemma spared cl os k t cc : plain_client cl -> Forall call_ok os -> rnd32 k -> t <> "user_info" ->
  (forall o, In o os -> spares k o) -> forall c, closed rnd32 (sdb c) -> (exists s, get_state (sdb c) k = Ok s) ->
  get_item (sdb (run_calls cl os c)) cc t k = get_item (sdb c) cc t k.
Proof.
  intros PC Ho Hk Ht Hl c C Hs. destruct (calls_write cl os PC Ho c C) as (_ & ops & F & ->).
  refine (proj1 (item_stable rnd32 ops cc k t rnd32_family _ Hk _ (sdb c) Hs)).
  - eapply Forall_impl; [|exact F]. cbn. tauto.
  - intros x Hx. rewrite Forall_forall in F. destruct (F _ Hx) as (_ & o & Hin & Hc). destruct (Hl _ Hin) as [Tm S].
    destruct (P_Sched.call_at _ _ _ _ Tm Hc) as (s & S1 & S2 & S3). unfold about in S. rewrite S1 in S. destruct S as [S|S].
    + assert (Ns : s <> k) by (intros ->; now rewrite eqb_refl in S). destruct x; cbn in *; try tauto; try (intuition congruence).
    + destruct o; try contradiction; cbn [call_op] in Hc.
      * destruct Hc as (? & ? & ->). cbn. intros [_ E]. congruence.
      * destruct Hc as (? & ->). cbn. tauto.
Qed.

(** ** what finalize does after the tokens are there *)
Definition tail_op (k : string) (o : op) : Prop := userinfo_op k o \/ exists x v, o = Bind x v k.
Lemma tail_keeps k ops cc t : rnd32 k -> t <> "user_info" -> Forall (fun o => op_ok rnd32 o /\ tail_op k o) ops ->
  forall d, (exists s, get_state d k = Ok s) -> get_item (snd (crun d ops)) cc t k = get_item d cc t k.
Proof.
  intros Hk Ht F d Hs. refine (proj1 (item_stable rnd32 ops cc k t rnd32_family _ Hk _ d Hs)).
  - eapply Forall_impl; [|exact F]. cbn. tauto.
  - intros o Ho. rewrite Forall_forall in F. destruct (F _ Ho) as (_ & [(? & ? & ->)|(? & ? & ->)]); cbn; [intros [_ E]; congruence|tauto].
Qed.
Definition tail (W : env) (cl : client) (k : string) (tok idt : val) : M (dict val) :=
  info <- (if has_service cl "userinfo" && truthy tok then
             match tok with VStr a => r <- get_user_info W cl k a ;; ret (msg_of r) | _ => raise OtherError end
           else match idt with VDict (kv :: r) => ret (userinfo_in_id_token (kv :: r)) | _ => ret [] end) ;;
  bind_subject idt info k ;;; ret info.
Lemma w_tail c0 W cl k tok idt : rnd32 k -> writes rnd32 c0 (tail_op k) (tail W cl k tok idt) any.
Proof.
  intros Hk. unfold tail. eapply w_bind with (Q := any); [exact rnd32_family| |].
  { destruct (_ && _).
    - destruct tok; try apply w_raise. eapply w_bind with (Q := any); [exact rnd32_family| |].
      + eapply w_weaken; [apply w_user_info; [exact rnd32_family|exact Hk]|]. intros o Ho. now left.
      + intros r _. now apply w_ret.
    - destruct idt as [| | | | |[|? ?]]; now apply w_ret. }
  intros info _. eapply w_bind with (Q := any); [exact rnd32_family| |intros _ _; now apply w_ret].
  unfold bind_subject.
  assert (B : forall x v, In x kinds -> writes rnd32 c0 (tail_op k) (bind_value x v k) any).
  { intros x v Hx. apply w_bind_value; auto. intros s _. right. eauto. }
  assert (B1 : writes rnd32 c0 (tail_op k) (s <- lift (dict_get "sub" info) ;; bind_value "subject id" s k) any).
  { eapply w_bind with (Q := any); [exact rnd32_family|apply w_lift; intros; exact I|]. intros v _. apply B, in_sub. }
  destruct idt as [| | | | |[|kv r]]; try exact B1.
  eapply w_bind with (Q := any); [exact rnd32_family|now apply w_any_pure|]. intros b _.
  eapply w_bind with (Q := any); [exact rnd32_family| |].
  { destruct b; [|now apply w_ret]. destruct (dget "sid" (kv :: r)); [|now apply w_ret]. apply B, in_sid. }
  intros _ _. eapply w_bind with (Q := any); [exact rnd32_family|apply w_lift; intros; exact I|]. intros v _. apply B, in_sub.
Qed.

Lemma finalize_tail W cl iss resp collect c info st tok idt ss c' :
  finalize W cl iss resp collect c = (Ok (FOk info st tok idt ss), c') ->
  exists ar c1 k t c2, finalize_auth (e_vrf W "authorization") (e_now W) iss resp c = (Ok ar, c1) /\ is_error_message ar = false /\
    dget "state" ar = Some (VStr k) /\ st = VStr k /\ get_access_and_id_token W cl ar k collect c1 = (Ok t, c2) /\ t_id t = idt /\ t_access t = tok /\
    tail W cl k tok idt c2 = (Ok info, c').
Proof.
  unfold finalize. intros H. apply bind_ok in H. destruct H as (ar & c1 & E1 & H). destruct (is_error_message ar) eqn:Ee.
  { apply bind_ok in H. destruct H as (? & ? & _ & H). apply bind_ok in H. destruct H as (? & ? & _ & H). discriminate. }
  destruct (dget "state" ar) as [[| | |k| |]|] eqn:Es; try discriminate. apply bind_ok in H. destruct H as (t & c2 & E2 & H).
  apply bind_ok in H. destruct H as (inf & c3 & E3 & H). apply bind_ok in H. destruct H as ([] & c4 & E4 & H). injection H as <- <- <- <- _ <-.
  exists ar, c1, k, t, c2. split; [exact E1|]. split; [exact Ee|]. split; [exact Es|]. split; [reflexivity|]. split; [exact E2|]. split; [reflexivity|]. split; [reflexivity|].
  unfold tail. rewrite bind_run, E3. rewrite bind_run, E4. reflexivity.
Qed.

(** ** the login *)
Lemma code_tokens W cl ar k collect c t c' rq : get_item (sdb c) cAuthzRequest "auth_request" k = Ok rq ->
  dget "response_type" rq = Some (VList [VStr "code"]) -> get_access_and_id_token W cl ar k collect c = (Ok t, c') ->
  exists m, get_tokens W cl k c = (Ok (RMsg m), c') /\ dget "access_token" m = Some (t_access t) /\ t_id t = val_or_none (dget (verified "id_token") m).
Proof.
  intros RQ RT H. unfold get_access_and_id_token in H. rewrite bind_run in H. unfold read_db in H. rewrite RQ in H. rewrite bind_run in H. unfold lift in H. rewrite RT in H.
  rewrite bind_run in H.
  change (one_of [VStr "code"] [["id_token"]; ["id_token"; "token"]; ["code"; "id_token"; "token"]]) with false in H. cbv iota in H.
  change (one_of [VStr "code"] [["token"]; ["id_token"; "token"]; ["code"; "token"]; ["code"; "id_token"; "token"]]) with false in H. cbv iota in H.
  change (one_of [VStr "code"] [["code"]; ["code"; "id_token"]]) with true in H. cbv iota in H.
  unfold tokens_from_endpoint in H. apply bind_ok in H. destruct H as (r & c1 & E1 & H). apply bind_ok in H. destruct H as (a & c2 & E2 & H).
  unfold lift, dict_get in E2. destruct r as [m|x|x]; cbn [msg_of] in *; try discriminate. destruct (dget "access_token" m) as [w|] eqn:Ew; [|discriminate].
  injection E2 as <- <-. injection H as <- <-. exists m. auto.
Qed.

Section After.
  Variables (cl : client) (os0 os1 : list call) (c0 : ctx) (W : env) (iss k code : string) (resp : dict val) (collect : bool) (info : dict val)
    (tok : string) (idt : dict val) (ss : val) (c1 : ctx) (rq : msg).
  Hypothesis PC : plain_client cl.
  Hypothesis E0 : sdb c0 = [].
  Hypothesis OK0 : Forall call_ok os0.
  Hypothesis OK1 : Forall call_ok os1.
  Hypothesis HU : forall name c m v, e_vrf W name c m = Ok v -> uniq v.
  Hypothesis CO : code_only k code W resp.
  Hypothesis RQ : get_item (sdb (run_calls cl os0 c0)) cAuthzRequest "auth_request" k = Ok rq.
  Hypothesis RT : dget "response_type" rq = Some (VList [VStr "code"]).
  Hypothesis H : finalize W cl iss resp collect (run_calls cl os0 c0) = (Ok (FOk info (VStr k) (VStr tok) (VDict idt) ss), c1).
  Hypothesis SP : forall o, In o os1 -> spares k o.

  Lemma after_login : let c := run_calls cl os1 c1 in
    rnd32 k /\ sound k (VStr iss) (sdb c) /\ c = set_db (sdb c) c0 /\
    (forall cc it, get_item (sdb c) cc "refresh_token_response" k <> Ok it) /\
    (exists ar, msg_new cAuthzResponse resp = Ok ar /\ forall cc, get_item (sdb c) cc "auth_response" k = msg_new cc (msg_to_dict cAuthzResponse ar)) /\
    (forall cc t, t <> "user_info" -> get_item (sdb c) cc t k = get_item (sdb c1) cc t k) /\
    exists v raw m, uniq v /\ (raw = v \/ exists z, raw = dset "status_code" z v) /\ add_expires_at (e_now W) raw = Ok m /\
      (forall cc, get_item (sdb c) cc "token_response" k = msg_new cc (msg_to_dict cTokenResponse m)) /\
      dget "access_token" m = Some (VStr tok) /\ dget (verified "id_token") m = Some (VDict idt) /\ NoDup (dkeys m).
  Proof.
    intros c. pose proof (closed_reach cl os0 c0 PC OK0 E0) as CL0.
    destruct (finalize_tail _ _ _ _ _ _ _ _ _ _ _ _ H) as (ar & ca & k' & t & cb & F & NE & SA & EK & GT & TI & TA & TL).
    injection EK as <-.
    pose proof (finalize_auth_spec _ _ _ _ _ _ _ F) as FS. cbn in FS. destruct FS as [[FS _]|(_ & s & F1 & F2 & F3 & F4 & F5 & F6 & _)]; [congruence|].
    rewrite SA in F1. injection F1 as <-.
    assert (Hk : rnd32 k) by (eapply closed_iss; [exact rnd32_no_dict|exact CL0|exact F2]).
    pose proof (reach_sound cl os0 c0 k (VStr iss) PC OK0 E0 F2) as S0.
    destruct CO as (CR & NT & _ & VF). destruct (msg_new_total cAuthzResponse resp eq_refl) as [ar0 Ear].
    destruct (front_stage k iss Hk W (e_now W) resp code ar0 _ S0 CR Ear (VF _ Ear)) as (_ & _ & _ & ca' & F' & LA & IA).
    rewrite F in F'. injection F' as -> <-.
    assert (OKA : Forall call_ok (os0 ++ [CFinalizeAuth W iss resp])) by (apply Forall_app; split; [assumption|]; repeat constructor).
    assert (OKT : Forall call_ok [CTokens W k]) by (apply Forall_cons; [exact Hk|constructor]).
    assert (OKB : Forall call_ok ((os0 ++ [CFinalizeAuth W iss resp]) ++ [CTokens W k])) by (apply Forall_app; split; assumption).
    assert (RA : ca = run_calls cl (os0 ++ [CFinalizeAuth W iss resp]) c0) by (rewrite P_Login.run_calls_snoc; cbn [run_call]; now rewrite F).
    assert (RQa : get_item (sdb ca) cAuthzRequest "auth_request" k = Ok rq) by (rewrite F5 by discriminate; exact RQ).
    destruct (code_tokens _ _ _ _ _ _ _ _ _ RQa RT GT) as (m & TK & TM1 & TM2). rewrite TA in TM1. rewrite TI in TM2.
    assert (RB : cb = run_calls cl ((os0 ++ [CFinalizeAuth W iss resp]) ++ [CTokens W k]) c0) by (rewrite P_Login.run_calls_snoc, <- RA; cbn [run_call]; now rewrite TK).
    pose proof (closed_reach cl _ c0 PC OKB E0) as CLB. rewrite <- RB in CLB.
    assert (SB : get_iss (sdb cb) k = Ok (VStr iss)).
    { replace cb with (run_calls cl [CTokens W k] ca) by (cbn; now rewrite TK). apply P_Route.calls_iss; auto.
      - intros o [<-|[]]; exact I.
      - rewrite RA. now apply closed_reach. }
    assert (STB : exists s, get_state (sdb cb) k = Ok s) by (unfold get_iss in SB; destruct (get_state (sdb cb) k); [eauto|discriminate]).
    destruct (w_tail cb W cl k (VStr tok) (VDict idt) Hk cb (conj CLB (eq_sym (set_db_same cb))) _ _ TL) as (T1 & (ops & T2 & T3) & _).
    assert (RC : c1 = run_calls cl (os0 ++ [CFinalize W iss resp collect]) c0) by (rewrite P_Login.run_calls_snoc; cbn [run_call]; now rewrite H).
    assert (OKC : Forall call_ok (os0 ++ [CFinalize W iss resp collect])) by (apply Forall_app; split; [assumption|]; repeat constructor).
    pose proof (closed_reach cl _ c0 PC OKC E0) as CLC. rewrite <- RC in CLC.
    assert (SC : get_iss (sdb c1) k = Ok (VStr iss)).
    { replace c1 with (run_calls cl [CFinalize W iss resp collect] (run_calls cl os0 c0)) by (cbn [run_calls fold_left run_call]; now rewrite H).
      apply P_Route.calls_iss; auto; [repeat constructor|intros o [<-|[]]; exact I]. }
    assert (STC : exists s, get_state (sdb c1) k = Ok s) by (unfold get_iss in SC; destruct (get_state (sdb c1) k); [eauto|discriminate]).
    assert (KEEP : forall cc t', t' <> "user_info" -> get_item (sdb c) cc t' k = get_item (sdb cb) cc t' k).
    { intros cc t' Ht. unfold c. rewrite (spared cl os1 k t' cc PC OK1 Hk Ht SP c1 CLC STC). rewrite T3. now apply tail_keeps. }
    assert (ALL : c = run_calls cl ((os0 ++ [CFinalize W iss resp collect]) ++ os1) c0) by (unfold c; now rewrite (P_Route.run_calls_app cl (os0 ++ _)), <- RC).
    assert (OKD : Forall call_ok ((os0 ++ [CFinalize W iss resp collect]) ++ os1)) by (apply Forall_app; split; assumption).
    assert (IC : get_iss (sdb c) k = Ok (VStr iss)) by (unfold c; apply P_Route.calls_iss; auto; intros o Ho; now apply spares_leaves, SP).
    split; [exact Hk|]. split; [rewrite ALL in *; now apply reach_sound|]. split; [rewrite ALL; apply history_keeps; auto; rewrite E0; apply closed_nil|].
    split. { intros cc it X. rewrite ALL in X. exact (no_refresh_item cl _ c0 k cc it PC OKD E0 Hk X). }
    split. { exists ar0. split; [exact Ear|]. intros cc. rewrite KEEP by discriminate.
      destruct (get_tokens_changes _ _ _ _ _ _ TK) as [[-> _]|(raw & v & m0 & V1 & V2 & V3 & V4)]; [apply IA|].
      pose proof (V4 m eq_refl) as V5.
      assert (UP : oidc_token_update (e_now W) raw k ca = (Ok m, cb)) by (rewrite (surjective_pairing (oidc_token_update _ _ _ _)), V3, V5; reflexivity).
      destruct (token_update_accepts rnd32 _ _ _ _ _ _ rnd32_family Hk UP) as (_ & _ & _ & _ & A5 & _).
      rewrite A5; [apply IA|discriminate|]. unfold get_iss in F6. destruct (get_state (sdb ca) k); [eauto|discriminate]. }
    split; [intros cc t' Ht; exact (spared cl os1 k t' cc PC OK1 Hk Ht SP c1 CLC STC)|].
    destruct (get_tokens_changes _ _ _ _ _ _ TK) as [[_ X]|(raw & v & m0 & V1 & V2 & V3 & V4)]; [now destruct (X m)|].
    pose proof (V4 m eq_refl) as V5.
    assert (UP : oidc_token_update (e_now W) raw k ca = (Ok m, cb)) by (rewrite (surjective_pairing (oidc_token_update _ _ _ _)), V3, V5; reflexivity).
    destruct (token_update_accepts rnd32 _ _ _ _ _ _ rnd32_family Hk UP) as (A1 & _ & A3 & _).
    exists v, raw, m. split; [exact (HU _ _ _ _ V1)|]. split; [exact V2|]. split; [exact A1|]. split; [intros cc; rewrite KEEP by discriminate; apply A3|].
    split; [exact TM1|]. split; [destruct (dget (verified "id_token") m); cbn in TM2; congruence|].
    exact (P_Login.get_tokens_uniq _ _ _ _ _ _ HU TK).
  Qed.
End After.

(** ** the token, and the ID Token *)
Lemma item_value cc cc' m it p v : c_json cc' = [] -> c_json cc = [] -> c_default cc' = [] -> mem_str p (c_sp cc') = false -> mem_str p (c_sp cc) = false ->
  NoDup (dkeys m) -> msg_new cc' (msg_to_dict cc m) = Ok it -> (match v with Some x => skipped x = false | None => True end) ->
  dget p m = v -> dget p it = v.
Proof.
  intros J' J D S' S N E K Hp. rewrite (msg_new_get cc' (msg_to_dict cc m)); [|now rewrite ser_keys|exact E]. rewrite ser_get, Hp.
  destruct v as [x|]; [|now rewrite D]. unfold ser_param. rewrite J, S. cbn [mem_str existsb snd]. rewrite K. unfold shown. rewrite J', S'. reflexivity.
Qed.

Lemma token_of_items now at_ d k tok raw m it ra :
  tok <> "" -> add_expires_at at_ raw = Ok m -> (dget "expires_in" it = None -> dget "__expires_at" it = None) ->
  NoDup (dkeys m) -> dget "access_token" m = Some (VStr tok) -> (0 <= now)%Z ->
  (exists e, get_item d cTokenResponse "refresh_token_response" k = Err (KeyError e)) ->
  msg_new cTokenResponse (msg_to_dict cTokenResponse m) = Ok it -> get_item d cTokenResponse "token_response" k = Ok it ->
  get_item d cAuthzResponse "auth_response" k = Ok ra -> dget "access_token" ra = None ->
  valid_until it at_ now tok (get_valid_access_token now d k).
Proof.
  intros Ne AE XA ND AT P (e & RF) EI TI AI AN.
  assert (IA : dget "access_token" it = Some (VStr tok)).
  { eapply (item_value cTokenResponse cTokenResponse m it); try reflexivity; try eassumption. destruct tok; [congruence|reflexivity]. }
  assert (IX : forall p x, mem_str p ["scope"] = false -> (match x with Some y => skipped y = false | None => True end) -> dget p m = x -> dget p it = x).
  { intros p x Hp Hx Hm. eapply (item_value cTokenResponse cTokenResponse m it); try reflexivity; eassumption. }
  unfold get_valid_access_token. rewrite RF, TI, AI. cbn [scan_token rbind]. rewrite IA.
  pose proof (expires_spec _ _ _ AE) as EX. unfold valid_until.
  destruct (dget "expires_in" raw) as [x|] eqn:Ex.
  - destruct EX as (n & E1 & E2).
    rewrite (IX "expires_in" (Some x) eq_refl); [|destruct x as [| | |[|]| |]; try discriminate; reflexivity|rewrite E2, dget_dset_neq by discriminate; exact Ex].
    exists n. split; [exact E1|].
    rewrite (IX "__expires_at" (Some (VInt (at_ + n)))) by (try reflexivity; rewrite E2; apply dget_dset_eq).
    destruct (now <? at_ + n)%Z eqn:L.
    + assert (Z : (0 <? at_ + n)%Z = true) by (apply Z.ltb_lt; apply Z.ltb_lt in L; lia). rewrite Z. cbn [scan_token andb rbind]. rewrite AN. reflexivity.
    + cbn [scan_token andb rbind]. rewrite AN. reflexivity.
  - assert (XI : dget "expires_in" it = None) by (apply IX; [reflexivity|exact Logic.I|rewrite EX; exact Ex]).
    rewrite XI, (XA XI). cbn [scan_token rbind]. rewrite AN. reflexivity.
Qed.

Lemma no_token_in_response resp ar m : uniq resp -> dget "access_token" resp = None -> msg_new cAuthzResponse resp = Ok ar ->
  msg_new cAuthzResponse (msg_to_dict cAuthzResponse ar) = Ok m -> dget "access_token" m = None.
Proof.
  intros U N A M. eapply (item_value cAuthzResponse cAuthzResponse ar m); try reflexivity; try exact I; [|exact M|].
  - apply (msg_new_NoDup cAuthzResponse resp ar); [constructor|exact A].
  - rewrite (msg_new_get _ _ _ U A), N. reflexivity.
Qed.

Lemma same_items m it i1 p : NoDup (dkeys m) -> msg_new cMessage (msg_to_dict cTokenResponse m) = Ok it ->
  msg_new cTokenResponse (msg_to_dict cTokenResponse m) = Ok i1 -> mem_str p ["scope"] = false -> dget p it = dget p i1.
Proof.
  intros N E E1 Hp. rewrite (msg_new_get cMessage (msg_to_dict cTokenResponse m) it), (msg_new_get cTokenResponse (msg_to_dict cTokenResponse m) i1) by (try assumption; now rewrite ser_keys).
  destruct (dget p (msg_to_dict cTokenResponse m)) as [x|]; [|reflexivity]. destruct (skipped x); [reflexivity|]. unfold shown. cbn [c_json c_sp cMessage cTokenResponse mem_str existsb].
  unfold mem_str in Hp. cbn [existsb] in Hp. now rewrite Hp.
Qed.
Lemma active_of_items d k i m it idt z now : sound k i d -> rnd32 k ->
  NoDup (dkeys m) -> dget (verified "id_token") m = Some (VDict idt) -> (forall i1, msg_new cTokenResponse (msg_to_dict cTokenResponse m) = Ok i1 -> dget (verified (verified "id_token")) i1 = None) -> dget "exp" idt = Some (VInt z) ->
  msg_new cMessage (msg_to_dict cTokenResponse m) = Ok it -> get_item d cMessage "token_response" k = Ok it ->
  get_item d cMessage "refresh_token_response" k = Err (KeyError "refresh_token_response") ->
  has_active_authentication now d k = Ok (now <? z)%Z.
Proof.
  intros S Hk ND V V2 X E I R. destruct (own_tokens k Hk i d [verified "id_token"] S) as (a & A1 & A2).
  unfold has_active_authentication. rewrite A1.
  assert (G : dget (verified "id_token") a = Some (VDict idt)).
  { apply (A2 (verified "id_token") R eq_refl it); [exact I|]. unfold offer.
    destruct (msg_new_total cTokenResponse (msg_to_dict cTokenResponse m) eq_refl) as [i1 E1]. rewrite (same_items m it i1 (verified (verified "id_token")) ND E E1 eq_refl), (V2 i1 E1). exact (P_Login.stored_verified cTokenResponse m idt it eq_refl eq_refl ND E V). }
  cbn [rbind]. destruct a as [|kv a]; [discriminate|]. unfold dict_get. rewrite G. cbn [rbind]. rewrite X. reflexivity.
Qed.

Section Outcome.
  Variables (cl : client) (os0 os1 : list call) (c0 : ctx) (W : env) (iss k code : string) (resp : dict val) (collect : bool) (info : dict val)
    (tok : string) (idt : dict val) (ss : val) (c1 : ctx) (rq : msg).
  Hypothesis PC : plain_client cl.
  Hypothesis E0 : sdb c0 = [].
  Hypothesis OK0 : Forall call_ok os0.
  Hypothesis OK1 : Forall call_ok os1.
  Hypothesis HU : forall name c m v, e_vrf W name c m = Ok v -> uniq v.
  Hypothesis CO : code_only k code W resp.
  Hypothesis RQ : get_item (sdb (run_calls cl os0 c0)) cAuthzRequest "auth_request" k = Ok rq.
  Hypothesis RT : dget "response_type" rq = Some (VList [VStr "code"]).
  Hypothesis H : finalize W cl iss resp collect (run_calls cl os0 c0) = (Ok (FOk info (VStr k) (VStr tok) (VDict idt) ss), c1).
  Hypothesis SP : forall o, In o os1 -> spares k o.
  Notation c := (run_calls cl os1 c1).

  Lemma the_calls : c = run_calls cl ((os0 ++ [CFinalize W iss resp collect]) ++ os1) c0 /\ Forall call_ok ((os0 ++ [CFinalize W iss resp collect]) ++ os1).
  Proof.
    split.
    - rewrite (P_Route.run_calls_app cl (os0 ++ [CFinalize W iss resp collect])). f_equal. rewrite P_Login.run_calls_snoc. cbn [run_call]. now rewrite H.
    - apply Forall_app. split; [|assumption]. apply Forall_app. split; [assumption|]. apply Forall_cons; [exact Logic.I|constructor].
  Qed.
  Lemma no_refresh cc : c_json cc = [] -> exists e, get_item (sdb c) cc "refresh_token_response" k = Err (KeyError e).
  Proof.
    intros J. destruct (after_login cl os0 os1 c0 W iss k code resp collect info tok idt ss c1 rq PC E0 OK0 OK1 HU CO RQ RT H SP) as (Hk & S & _ & NR & _).
    destruct (own_item k Hk (VStr iss) _ cc "refresh_token_response" S ltac:(discriminate) J) as [[m X]|X]; [now destruct (NR cc m)|exact X].
  Qed.
  Lemma no_refresh_msg : get_item (sdb c) cMessage "refresh_token_response" k = Err (KeyError "refresh_token_response").
  Proof.
    destruct (after_login cl os0 os1 c0 W iss k code resp collect info tok idt ss c1 rq PC E0 OK0 OK1 HU CO RQ RT H SP) as (Hk & S & _).
    destruct the_calls as [CE CO1]. rewrite CE in S |- *. exact (never_refreshed cl _ c0 k (VStr iss) PC CO1 E0 Hk S).
  Qed.

  Lemma stored_now it : stored_tokens (sdb c1) k it -> stored_tokens (sdb c) k it.
  Proof.
    intros X. destruct (after_login cl os0 os1 c0 W iss k code resp collect info tok idt ss c1 rq PC E0 OK0 OK1 HU CO RQ RT H SP) as
      (Hk & S & _ & _ & _ & KP & _). unfold stored_tokens. rewrite KP by discriminate. exact X.
  Qed.

  Lemma token_still now it : tok <> "" -> (0 <= now)%Z -> stored_tokens (sdb c1) k it -> (dget "expires_in" it = None -> dget "__expires_at" it = None) ->
    valid_until it (e_now W) now tok (get_valid_access_token now (sdb c) k).
  Proof.
    intros Ne P IX NX. pose proof (no_refresh cTokenResponse eq_refl) as RF. pose proof (stored_now it IX) as IC. unfold stored_tokens in IC.
    destruct (after_login cl os0 os1 c0 W iss k code resp collect info tok idt ss c1 rq PC E0 OK0 OK1 HU CO RQ RT H SP) as
      (Hk & S & _ & _ & (ar & AR & AI) & _ & v & raw & m & _ & RV & AE & TI & AT & IT & ND).
    destruct (msg_new_total cAuthzResponse (msg_to_dict cAuthzResponse ar) eq_refl) as [ra EA].
    eapply (token_of_items now (e_now W) (sdb c) k tok raw m it ra); eauto.
    - rewrite TI in IC. exact IC.
    - rewrite AI. exact EA.
    - eapply no_token_in_response; [apply CO|apply CO|exact AR|exact EA].
  Qed.

  Lemma active_still now z it : stored_tokens (sdb c1) k it -> dget (verified (verified "id_token")) it = None -> dget "exp" idt = Some (VInt z) ->
    has_active_authentication now (sdb c) k = Ok (now <? z)%Z.
  Proof.
    intros IX NX X. pose proof no_refresh_msg as RF. pose proof (stored_now it IX) as IC. unfold stored_tokens in IC.
    destruct (after_login cl os0 os1 c0 W iss k code resp collect info tok idt ss c1 rq PC E0 OK0 OK1 HU CO RQ RT H SP) as
      (Hk & S & _ & _ & _ & _ & v & raw & m & _ & RV & AE & TI & AT & IT & ND).
    rewrite TI in IC.
    destruct (msg_new_total cMessage (msg_to_dict cTokenResponse m) eq_refl) as [i2 EI].
    apply (active_of_items (sdb c) k (VStr iss) m i2 idt z now S Hk ND IT); [|exact X|exact EI|rewrite TI; exact EI|exact RF].
    intros i1 E1. assert (Z : i1 = it) by congruence. now rewrite Z.
  Qed.

  Lemma user_info_still W1 sub um : dget "sub" idt = Some (VStr sub) -> tok <> "" ->
    has_service cl "userinfo" = true -> dget "pre_construct" (conf_of cl "userinfo") = None ->
    userinfo_endpoint_honest W1 c0 tok um -> about_user sub um ->
    (forall m, msg_new cMessage um = Ok m -> verifies W1 "userinfo" m m) ->
    exists m c', get_user_info W1 cl k tok c = (Ok (RMsg m), c') /\ msg_new cMessage um = Ok m.
  Proof.
    intros IS Ne HS PCU UE UA V. pose proof no_refresh_msg as RF.
    destruct (after_login cl os0 os1 c0 W iss k code resp collect info tok idt ss c1 rq PC E0 OK0 OK1 HU CO RQ RT H SP) as
      (Hk & S & CE & _ & _ & _ & v & raw & m & CF & RV & AE & TI & AT & IT & ND).
    destruct (msg_new_total cMessage (msg_to_dict cTokenResponse m) eq_refl) as [it EI].
    destruct (userinfo_stage k iss Hk W1 cl c sub tok um idt S HS PCU Ne) as (x & c' & X1 & X2 & _); auto.
    - exists it. split; [rewrite TI; exact EI|]. exact (P_Login.stored_verified cTokenResponse m idt it eq_refl eq_refl ND EI IT).
    - rewrite CE. exact UE.
    - exists x, c'. split; [exact X1|exact X2].
  Qed.
End Outcome.

(** ** refresh *)
Lemma gather_loop_no_state s c ps : (forall p, In p ps -> p <> "state") -> forall args, exists out, gather_loop s c ps args = Ok out.
Proof.
  induction ps as [|p ps IH]; intros Hp args; cbn [gather_loop]; [eauto|].
  assert (Hp' : forall q, In q ps -> q <> "state") by (intros q Hq; apply Hp; now right).
  destruct (dhas p args); [now apply IH|]. rewrite (eqb_neq p "state") by (apply Hp; now left). now apply IH.
Qed.

Section Refresh.
  Variables (k iss : string) (Hk : rnd32 k).
  Notation i := (VStr iss).
  Notation kw := [("state", VStr k)].

  Lemma refresh_construct_ok W cl scope c rt it :
    can_refresh cl c ->
    (exists e, get_item (sdb c) cTokenResponse "refresh_token_response" k = Err (KeyError e)) ->
    get_item (sdb c) cTokenResponse "token_response" k = Ok it -> gives_refresh_token rt it -> client_id c <> "" -> client_secret c <> "" ->
    exists req, construct (refresh_svc W cl) (refresh_args scope) kw c = (Ok req, c) /\ NoDup (dkeys req) /\
      dget "refresh_token" req = Some (VStr rt) /\ dget "grant_type" req = Some (VStr "refresh_token") /\
      dget "client_id" req = Some (VStr (client_id c)) /\ dget "client_secret" req = Some (VStr (client_secret c)).
  Proof.
    intros (_ & PC & RA & GA1 & GA2) (e & NI) HI (HR & Ne & HV & HN) I1 I2.
    assert (Pre : exists a1, refresh_pre (c_par cRefreshRequest) (refresh_args scope) [] kw c = (Ok (a1, []), c)).
    { unfold refresh_pre, get_state_parameter. cbn [dget]. change ("state" =?s "state") with true. cbn [rbind key_arg].
      unfold extend_request_args. rewrite HI, NI. cbn [rbind]. eexists. reflexivity. }
    destruct Pre as [a1 E1].
    assert (NA : NoDup (dkeys (refresh_args scope))) by (unfold refresh_args; destruct (scope =?s ""); [constructor|]; cbn; constructor; [easy|constructor]).
    destruct (refresh_pre_spec _ _ _ _ _ _ _ _ k E1 eq_refl NA) as (_ & _ & N1 & _ & G).
    assert (G' : forall p, p <> "scope" -> mem_str p (c_par cRefreshRequest) = true -> dget p a1 = offer false it p).
    { intros p Hp Hm. rewrite G; [|unfold refresh_args; destruct (scope =?s ""); [reflexivity|]; cbn [dget]; now rewrite (eqb_neq "scope" p) by congruence|exact Hm].
      rewrite NI, HI. reflexivity. }
    assert (A1 : dget "refresh_token" a1 = Some (VStr rt)) by (rewrite G' by (discriminate || reflexivity); unfold offer; now rewrite HV, HR).
    assert (A2 : forall p, In p ["grant_type"; "client_id"; "client_secret"] -> dget p a1 = None).
    { intros p Hp. destruct (HN p Hp) as [X1 X2]. rewrite G'; [unfold offer; now rewrite X2, X1| |]; cbn in Hp; intuition (subst; try discriminate; reflexivity). }
    destruct (gather_loop_no_state (refresh_svc W cl) c (c_par cRefreshRequest) ltac:(cbn; intuition (subst; discriminate)) a1) as [out GO].
    destruct (gather_loop_get _ _ _ _ _ GO) as [GN GG].
    destruct (msg_new_total cRefreshRequest out eq_refl) as [req Er]. exists req.
    assert (MG : forall p v, dget p out = Some (VStr v) -> v <> "" -> p <> "scope" -> dget p req = Some (VStr v)).
    { intros p v Hp Hv Hs. eapply (msg_new_get' cRefreshRequest out req p v); try eassumption; try reflexivity; [now apply GN|].
      cbn. now rewrite (eqb_neq p "scope") by exact Hs. }
    assert (OI : dget "client_id" out = Some (VStr (client_id c))).
    { rewrite GG, A2 by (cbn; auto). change (mem_str "client_id" (c_par cRefreshRequest)) with true. cbv iota. unfold gathered, first_truthy. change (ctx_get c "client_id") with (Some (VStr (client_id c))). cbn [find otruthy]. destruct (client_id c); [congruence|reflexivity]. }
    assert (OS : dget "client_secret" out = Some (VStr (client_secret c))).
    { rewrite GG, A2 by (cbn; auto). change (mem_str "client_secret" (c_par cRefreshRequest)) with true. cbv iota. unfold gathered, first_truthy. change (ctx_get c "client_secret") with (Some (VStr (client_secret c))). cbn [find otruthy]. destruct (client_secret c); [congruence|reflexivity]. }
    split; [|split; [eapply msg_new_NoDup; [|exact Er]; cbn; constructor; [easy|constructor]|split; [|split; [|split]]]].
    - unfold construct. rewrite bind_run. unfold do_pre_construct. rewrite method_args_plain by exact PC.
      change (s_pre (refresh_svc W cl)) with [refresh_pre (c_par cRefreshRequest)]. cbn [run_pre]. rewrite bind_run, E1. cbn [fst snd]. unfold ret at 1.
      change (match dget "state" kw with Some v => if mem_str "state" (c_par (s_cls (refresh_svc W cl))) then dsetdefault "state" v a1 else a1 | None => a1 end) with a1.
      rewrite bind_run. unfold gather_request_args. change (s_gather (refresh_svc W cl)) with no_gather. change (s_cls (refresh_svc W cl)) with cRefreshRequest.
      rewrite GO. cbn [rbind no_gather]. rewrite bind_run. unfold lift. rewrite Er. reflexivity.
    - apply MG; [|exact Ne|discriminate]. rewrite GG, A1. reflexivity.
    - rewrite (msg_new_get _ _ _ (GN N1) Er), GG, A2 by (cbn; auto). change (mem_str "grant_type" (c_par cRefreshRequest)) with true. cbv iota.
      unfold gathered, first_truthy, conf_request_args. change (s_conf (refresh_svc W cl)) with (conf_of cl "refresh_token"). rewrite RA, GA1, GA2. reflexivity.
    - apply MG; [exact OI|exact I1|discriminate].
    - apply MG; [exact OS|exact I2|discriminate].
  Qed.

  Lemma refresh_request_ok W cl scope c rt it ep am :
    sound k i (sdb c) -> can_refresh cl c ->
    (exists e, get_item (sdb c) cTokenResponse "refresh_token_response" k = Err (KeyError e)) ->
    get_item (sdb c) cTokenResponse "token_response" k = Ok it -> gives_refresh_token rt it -> registered_secret c ->
    client_authn_method c = Ok am -> dget "token_endpoint" (provider_info c) = Some (VStr ep) ->
    exists r txt h, get_request_parameters (e_authn W) (refresh_svc W cl) (refresh_args scope) "" "" am kw c =
      (Ok (mkinfo "POST" r ep (Some (BText txt)) h), c) /\ refreshes (client_id c) (client_secret c) rt (Some (BText txt)) h.
  Proof.
    intros S CRF NI HI GR (I1 & I2 & I3) HA EP. pose proof (proj1 (proj2 GR)) as Rne.
    destruct (refresh_construct_ok W cl scope c rt it CRF NI HI GR I1 I2) as (req & C & N & G0 & G3 & G1 & G2).
    assert (ME : am = "client_secret_basic" \/ am = "client_secret_post").
    { unfold client_authn_method in HA. destruct I3 as [E|E]; rewrite E in HA; injection HA as <-; auto. }
    set (kwi := if issuer c =?s "" then kw else dset "iss" (VStr (issuer c)) kw).
    assert (KW : forall p, In p ["password"; "user"; "client_secret"] -> dget p (dset "authn_endpoint" (VStr (s_endpoint_name (refresh_svc W cl))) kwi) = None).
    { intros p Hp. assert (Q : p <> "authn_endpoint" /\ p <> "iss" /\ p <> "state") by (cbn in Hp; intuition (subst; discriminate)).
      destruct Q as (Q1 & Q2 & Q3). rewrite dget_dset_neq by congruence. subst kwi. assert (Z : dget p kw = None).
      { cbn [dget]. now rewrite (eqb_neq "state" p) by congruence. }
      destruct (issuer c =?s ""); [exact Z|]. rewrite dget_dset_neq by congruence. exact Z. }
    assert (GH : exists h r, get_headers (e_authn W) (refresh_svc W cl) req "POST" am kwi c = (Ok (h, r), c) /\
      (dget "Authorization" (dset "Content-Type" (body_content_type "urlencoded") h) = Some ("Basic " ++ basic_token (client_id c) (client_secret c))%string \/
       (dget "client_secret" r = Some (VStr (client_secret c)) /\ dget "client_id" r = Some (VStr (client_id c)))) /\
      NoDup (dkeys r) /\ (forall p, In p ["grant_type"; "refresh_token"] -> dget p r = dget p req)).
    { unfold get_headers. rewrite bind_run. unfold asks.
      assert (MM : (if am =?s "" then s_authn (refresh_svc W cl) c else am) = am) by (destruct ME as [-> | ->]; reflexivity). rewrite MM.
      rewrite bind_run. unfold get_authn_header, authenticate. destruct ME as [-> | ->].
      - change ("client_secret_basic" =?s "") with false. change ("client_secret_basic" =?s "client_secret_basic") with true. cbn iota.
        unfold client_secret_basic, get_user, get_passwd. rewrite (KW "user"), (KW "password") by (cbn; auto). rewrite G2.
        change (s_cls (refresh_svc W cl)) with cRefreshRequest. change (s_atr (refresh_svc W cl)) with false.
        unfold basic_modify, with_or_without_client_id. change (mem_str "client_id" (c_req cRefreshRequest)) with false. cbv iota. cbn [rbind].
        rewrite bind_run. change (s_extra (refresh_svc W cl)) with (@nil header_method). cbn [run_headers ret]. cbn [fst snd]. unfold ret.
        eexists. eexists. split; [reflexivity|]. split; [left; reflexivity|]. split; [now apply NoDup_ddel, NoDup_ddel|].
        intros p Hp. rewrite dget_ddel_neq, dget_ddel_neq; [reflexivity| |]; cbn in Hp; intuition (subst; discriminate).
      - change ("client_secret_post" =?s "") with false. change ("client_secret_post" =?s "client_secret_basic") with false.
        change ("client_secret_post" =?s "client_secret_post") with true. cbn iota.
        unfold client_secret_post, post_modify. unfold dhas. rewrite G2. cbn [rbind]. rewrite bind_run. cbn [run_headers fst snd]. unfold ret.
        eexists. eexists. split; [reflexivity|]. split; [right; split; [rewrite dget_dset_neq by discriminate; exact G2|apply dget_dset_eq]|].
        split; [now apply NoDup_dset|]. intros p Hp. apply dget_dset_neq. cbn in Hp. intuition (subst; discriminate). }
    destruct GH as (h & r & GH & B1 & B3 & B4).
    exists r, (urlencode (msg_pairs (sent_cls (refresh_svc W cl) am req) r)), (dset "Content-Type" (body_content_type "urlencoded") h). split.
    - unfold get_request_parameters. cbn [String.eqb]. change (s_http_method (refresh_svc W cl)) with "POST". change (s_req_type (refresh_svc W cl)) with "urlencoded".
      rewrite bind_run. unfold asks. cbv beta.
      assert (MM : (if am =?s "" then s_authn (refresh_svc W cl) c else am) = am) by (destruct ME as [-> | ->]; reflexivity). rewrite MM.
      rewrite bind_run, C. rewrite bind_run. cbv beta. fold kwi.
      rewrite bind_run. change (if "" =?s "" then "POST" else "") with "POST". match goal with |- context [get_headers ?a1 ?a2 ?a3 ?a4 ?a5 ?a6 ?a7] => change (get_headers a1 a2 a3 a4 a5 a6 a7) with (get_headers a1 a2 a3 a4 a5 kwi a7) end. rewrite GH.
      rewrite bind_run. change (dget "endpoint" kw) with (@None val). cbv iota.
      unfold get_endpoint. change (s_endpoint (refresh_svc W cl)) with "". change (s_endpoint_name (refresh_svc W cl)) with "token_endpoint".
      change ("" =?s "") with true. cbv iota. unfold dict_get. rewrite EP.
      rewrite bind_run. unfold lift. change (get_http_url ep (sent_cls (refresh_svc W cl) am req) r "POST") with (Ok ep). cbv iota.
      change ("POST" =?s "POST") with true. cbv iota. rewrite bind_run. unfold get_http_body.
      change (contains URL_ENCODED (body_content_type "urlencoded")) with true. cbv iota. unfold msg_to_urlencoded.
      assert (MR : missing_required (sent_cls (refresh_svc W cl) am req) r = false).
      { unfold missing_required. assert (CR : c_req (sent_cls (refresh_svc W cl) am req) = c_req cRefreshRequest).
        { unfold sent_cls. change (s_cls (refresh_svc W cl)) with cRefreshRequest. cbn [c_req]. destruct ME as [-> | ->]; reflexivity. }
        rewrite CR. cbn [cRefreshRequest c_req existsb]. unfold dhas. rewrite (B4 "grant_type"), (B4 "refresh_token"), G0, G3 by (cbn; auto). reflexivity. }
      rewrite MR. cbn [rbind]. reflexivity.
    - eexists. split; [reflexivity|]. split; [apply encoded_param; [exact B3|rewrite B4 by (cbn; auto); exact G3|discriminate]|].
      split; [apply encoded_param; [exact B3|rewrite B4 by (cbn; auto); exact G0|exact Rne]|].
      destruct B1 as [B1|[B1 B2]]; [left; exact B1|right; split; apply encoded_param; auto].
  Qed.

  Lemma with_id_get o m p : p <> verified "id_token" -> dget p (with_id_token o m) = dget p m.
  Proof. destruct o; [|reflexivity]. intros Hp. apply dget_dset_neq. congruence. Qed.

  Lemma refresh_stage W cl scope c rt it tok tm o :
    sound k i (sdb c) -> can_refresh cl c ->
    (exists e, get_item (sdb c) cTokenResponse "refresh_token_response" k = Err (KeyError e)) ->
    get_item (sdb c) cTokenResponse "token_response" k = Ok it -> gives_refresh_token rt it -> registered_secret c ->
    refresh_endpoint_honest W c rt tm -> token_answer tok tm ->
    (forall m, msg_new cTokenResponse tm = Ok m -> verifies W "refresh_token" m (with_id_token o m)) ->
    exists m0 m c', refresh_access_token W cl k scope c = (Ok (RMsg m), c') /\ later k i ["token_response"] c c' /\
      msg_new cTokenResponse tm = Ok m0 /\ add_expires_at (e_now W) (with_id_token o m0) = Ok m /\ NoDup (dkeys m) /\
      dget "access_token" m = Some (VStr tok) /\
      forall cc, get_item (sdb c') cc "token_response" k = msg_new cc (msg_to_dict cTokenResponse m).
  Proof.
    intros S CRF NI HI GR RS (ep & EP & HT) (U & T1 & T2 & T3 & T4) V.
    assert (exists am, client_authn_method c = Ok am) as [am AM].
    { unfold client_authn_method. destruct RS as (_ & _ & [-> | ->]); eexists; reflexivity. }
    destruct (refresh_request_ok W cl scope c rt it ep am S CRF NI HI GR RS AM EP) as (r & txt & h & RQ & RD).
    destruct (msg_new_total cTokenResponse tm eq_refl) as [m0 E0]. specialize (V m0 E0).
    assert (ND0 : NoDup (dkeys m0)) by (apply (msg_new_NoDup cTokenResponse tm m0); [constructor|exact E0]).
    assert (G0 : dget "access_token" m0 = Some (VStr tok)) by (exact (msg_new_get' cTokenResponse tm m0 "access_token" tok eq_refl U E0 eq_refl T1 T2)).
    assert (G1 : dget "error" m0 = None) by now rewrite (msg_new_get _ _ _ U E0), T3.
    set (m1 := with_id_token o m0) in *.
    assert (M1 : forall p, p <> verified "id_token" -> dget p m1 = dget p m0) by (intros p; apply with_id_get).
    assert (ND1' : NoDup (dkeys m1)) by (unfold m1; destruct o; [now apply NoDup_dset|exact ND0]).
    assert (G2 : exists r1, add_expires_at (e_now W) m1 = Ok r1).
    { unfold add_expires_at. rewrite M1 by discriminate. rewrite (msg_new_get _ _ _ U E0).
      destruct (dget "expires_in" tm) as [v|]; [|eexists; reflexivity]. destruct T4 as [z ->]. eexists; reflexivity. }
    destruct G2 as [r1 G2].
    assert (K1 : forall p, p <> "__expires_at" -> dget p r1 = dget p m1) by (intros p; eapply add_expires_keys; exact G2).
    assert (ND1 : NoDup (dkeys r1)).
    { unfold add_expires_at in G2. destruct (dget "expires_in" m1) as [v|]; [destruct (to_int v); [|discriminate]|]; injection G2 as <-; [apply NoDup_dset|]; assumption. }
    destruct (on_store k iss Hk c cTokenResponse r1 "token_response" S ltac:(discriminate)) as (c2 & B2 & L2 & I2).
    assert (UPD : store_token_response (e_now W) m1 k c = (Ok r1, c2)) by (unfold store_token_response; rewrite G2; rewrite bind_run, B2; reflexivity).
    assert (GA : dget "access_token" r1 = Some (VStr tok)) by (rewrite K1, M1 by discriminate; exact G0).
    exists m0, r1, c2. split; [|split; [exact L2|split; [exact E0|split; [exact G2|split; [exact ND1|split; [exact GA|exact I2]]]]]].
    unfold refresh_access_token. cbv zeta. rewrite AM. fold (refresh_args scope). rewrite bind_run. unfold do_request_named.
    change (s_name (refresh_svc W cl)) with "refresh_token". rewrite (proj1 CRF). unfold do_request. rewrite bind_run. match goal with |- context [get_request_parameters ?a1 ?a2 ?a3 ?a4 ?a5 ?a6 ?a7 ?a8] => change (get_request_parameters a1 a2 a3 a4 a5 a6 a7 a8) with (get_request_parameters a1 a2 (refresh_args scope) a4 a5 a6 kw a8) end. rewrite RQ. cbn [i_url i_method i_body i_headers].
    change (dget "state" [("state", VStr k)]) with (Some (VStr k)). cbv iota. change (s_resp_type (refresh_svc W cl)) with "json".
    change (if "" =?s "" then "json" else "") with "json". unfold service_request. rewrite bind_run.
    assert (NE : dhas "error" m1 = false) by (unfold dhas; rewrite M1 by discriminate; now rewrite G1).
    erewrite (answered (e_http W) (e_jwt W) (refresh_svc W cl) ep "POST" (Some (BText txt)) h k tm m0 (HT _ _ RD) eq_refl E0);
      [|unfold is_error_message, dhas; now rewrite G1|apply V|reflexivity|].
    2: { intros Z. rewrite Z in M1. specialize (M1 "access_token" ltac:(discriminate)). rewrite G0 in M1. discriminate. }
    unfold has_error. rewrite NE. rewrite bind_run. change (s_update (refresh_svc W cl)) with (store_token_response (e_now W)). rewrite UPD. unfold ret. unfold is_error_response, has_error.
    assert (NE2 : dhas "error" r1 = false) by (unfold dhas; rewrite K1, M1 by discriminate; now rewrite G1).
    rewrite NE2. reflexivity.
  Qed.
End Refresh.

Lemma nothing_there k i d p : rnd32 k -> sound k i d ->
  (forall t it, In t token_items -> get_item d cMessage t k = Ok it -> offer false it p = None) ->
  multiple_extend_request_args d [] k [p] token_items false = Ok [].
Proof.
  intros Hk S HN. destruct (own_tokens k Hk i d [p] S) as (a & A1 & _). rewrite A1. destruct (own_session k Hk i d S) as (st & E & X).
  assert (Z : forall q, dget q a = None).
  { intros q. rewrite (mult_extend_spec d [] k [p] token_items false st a E A1 q). cbn [mem_str existsb]. destruct (q =?s p) eqn:Eq; [|reflexivity].
    apply eqb_true_iff in Eq. rewrite Eq. cbn [orb]. clear A1 a Eq q.
    assert (L : forall l, (forall t, In t l -> In t token_items) -> last_offer false (present st l) p = None); [|now rewrite L].
    induction l as [|t l IH]; intros Hl; [reflexivity|]. cbn [present].
    assert (Hl' : forall t', In t' l -> In t' token_items) by (intros; apply Hl; now right). specialize (IH Hl').
    assert (Ht : In t token_items) by (apply Hl; now left).
    assert (T : mem_str t state_json_params = true /\ t <> "iss") by (destruct Ht as [<-|[<-|[<-|[]]]]; split; reflexivity || discriminate).
    destruct (X t (proj1 T) (proj2 T)) as [[-> _]|(it & -> & G)]; [exact IH|].
    destruct (msg_new cMessage it) as [m|] eqn:Em; [|exact IH]. cbn [last_offer]. rewrite IH. now apply (HN t m). }
  destruct a as [|[q v] a]; [reflexivity|]. specialize (Z q). cbn [dget] in Z. now rewrite eqb_refl in Z.
Qed.

Section Refreshed.
  Variables (cl : client) (os0 os1 : list call) (c0 : ctx) (W : env) (iss k code : string) (resp : dict val) (collect : bool) (info : dict val)
    (tok : string) (idt : dict val) (ss : val) (c1 : ctx) (rq : msg).
  Hypothesis PC : plain_client cl.
  Hypothesis E0 : sdb c0 = [].
  Hypothesis OK0 : Forall call_ok os0.
  Hypothesis OK1 : Forall call_ok os1.
  Hypothesis HU : forall name c m v, e_vrf W name c m = Ok v -> uniq v.
  Hypothesis CO : code_only k code W resp.
  Hypothesis RQ : get_item (sdb (run_calls cl os0 c0)) cAuthzRequest "auth_request" k = Ok rq.
  Hypothesis RT : dget "response_type" rq = Some (VList [VStr "code"]).
  Hypothesis H : finalize W cl iss resp collect (run_calls cl os0 c0) = (Ok (FOk info (VStr k) (VStr tok) (VDict idt) ss), c1).
  Hypothesis SP : forall o, In o os1 -> spares k o.
  Notation c := (run_calls cl os1 c1).

  Lemma refreshed W1 scope rt tok2 tm o : can_refresh cl c0 -> registered_secret c0 ->
    (forall it, stored_tokens (sdb c1) k it -> gives_refresh_token rt it) ->
    refresh_endpoint_honest W1 c0 rt tm -> token_answer tok2 tm -> no_private tm ->
    (forall m, msg_new cTokenResponse tm = Ok m -> verifies W1 "refresh_token" m (with_id_token o m)) ->
    exists m c', refresh_access_token W1 cl k scope c = (Ok (RMsg m), c') /\ dget "access_token" m = Some (VStr tok2) /\
      (forall now, (0 <= now)%Z -> valid_until tm (e_now W1) now tok2 (get_valid_access_token now (sdb c') k)) /\
      (forall now, match o with
                   | None => has_active_authentication now (sdb c') k = Ok false
                   | Some idt2 => forall z, dget "exp" idt2 = Some (VInt z) -> has_active_authentication now (sdb c') k = Ok (now <? z)%Z
                   end).
  Proof.
    intros CR RS GR EH TA (P1 & P2 & P3) V.
    pose proof (no_refresh cl os0 os1 c0 W iss k code resp collect info tok idt ss c1 rq PC E0 OK0 OK1 HU CO RQ RT H SP) as RF.
    pose proof (no_refresh_msg cl os0 os1 c0 W iss k code resp collect info tok idt ss c1 rq PC E0 OK0 OK1 HU CO RQ RT H SP) as RFM.
    destruct (after_login cl os0 os1 c0 W iss k code resp collect info tok idt ss c1 rq PC E0 OK0 OK1 HU CO RQ RT H SP) as
      (Hk & S & CE & _ & (ar & AR & AI) & KP & v & raw & m & CF & RV & AE & TI & AT & IT & ND).
    destruct (msg_new_total cTokenResponse (msg_to_dict cTokenResponse m) eq_refl) as [it EI].
    assert (GI : gives_refresh_token rt it).
    { apply GR. unfold stored_tokens. rewrite <- KP, TI by discriminate. exact EI. }
    assert (CR' : can_refresh cl c) by (rewrite CE; exact CR). assert (RS' : registered_secret c) by (rewrite CE; exact RS).
    assert (EH' : refresh_endpoint_honest W1 c rt tm) by (rewrite CE; exact EH).
    destruct (refresh_stage k iss Hk W1 cl scope c rt it tok2 tm o S CR' (RF cTokenResponse eq_refl) ltac:(rewrite TI; exact EI) GI RS' EH' TA V)
      as (m0 & m2 & c' & F1 & F2 & F3 & F4 & F5 & F6 & F7).
    destruct F2 as (L1 & L2 & L3 & L4). destruct TA as (U & T1 & T2 & T3 & T4).
    exists m2, c'. split; [exact F1|]. split; [exact F6|].
    assert (G0 : forall p x, match x with Some y => skipped y = false | None => True end -> p <> "scope" -> dget p tm = x -> dget p m0 = x).
    { intros p x Hx Hs Hp. rewrite (msg_new_get _ _ _ U F3), Hp. destruct x as [y|]; [|reflexivity]. rewrite Hx. apply shown_plain; [reflexivity|].
      cbn. now rewrite (eqb_neq p "scope") by exact Hs. }
    assert (AI' : forall cc, get_item (sdb c') cc "auth_response" k = msg_new cc (msg_to_dict cAuthzResponse ar)).
    { intros cc. rewrite L3; [apply AI|cbn; intuition congruence|discriminate]. }
    assert (RF' : forall cc, get_item (sdb c') cc "refresh_token_response" k = get_item (sdb c) cc "refresh_token_response" k).
    { intros cc. apply L3; [cbn; intuition congruence|discriminate]. }
    destruct CO as (CO1 & CO2 & CO3 & CO4). destruct CO1 as (CU & _ & _ & _ & _ & CV & _).
    split.
    - intros now P. set (vv := with_id_token o m0) in *.
      destruct (msg_new_total cTokenResponse (msg_to_dict cTokenResponse m2) eq_refl) as [it2 EI2].
      destruct (msg_new_total cAuthzResponse (msg_to_dict cAuthzResponse ar) eq_refl) as [ra EA].
      assert (NV : uniq vv).
      { unfold vv, uniq. assert (N0 : NoDup (dkeys m0)) by (apply (msg_new_NoDup cTokenResponse tm m0); [constructor|exact F3]). destruct o; [now apply NoDup_dset|exact N0]. }
      assert (X1 : dget "expires_in" vv = dget "expires_in" tm).
      { unfold vv. rewrite with_id_get by discriminate. apply G0; [|discriminate|reflexivity]. destruct (dget "expires_in" tm) as [x|]; [destruct T4 as [z ->]; reflexivity|exact I]. }
      assert (X2 : dget "__expires_at" vv = None) by (unfold vv; rewrite with_id_get by discriminate; apply G0; [exact I|discriminate|exact P1]).
      assert (X3 : dget "expires_in" it2 = dget "expires_in" tm).
      { rewrite <- X1. eapply (item_value cTokenResponse cTokenResponse m2 it2 "expires_in" (dget "expires_in" vv)); try reflexivity; [exact F5|exact EI2| |].
        - rewrite X1. destruct (dget "expires_in" tm) as [x|]; [destruct T4 as [z ->]; reflexivity|exact I].
        - pose proof (expires_spec _ _ _ F4) as EX. destruct (dget "expires_in" vv) eqn:Ev; [destruct EX as (n & _ & ->); rewrite dget_dset_neq by discriminate; exact Ev|rewrite EX; exact Ev]. }
      assert (R : valid_until it2 (e_now W1) now tok2 (get_valid_access_token now (sdb c') k)).
      { eapply (token_of_items now (e_now W1) (sdb c') k tok2 vv m2 it2 ra T2 F4); [|exact F5|exact F6|exact P| | | | |].
        - intros Z. eapply (item_value cTokenResponse cTokenResponse m2 it2 "__expires_at" None); try reflexivity; [exact F5|exact EI2|].
          rewrite X3 in Z. rewrite Z in X1. pose proof (expires_spec _ _ _ F4) as EX. rewrite X1 in EX. rewrite EX. exact X2.
        - destruct (RF cTokenResponse eq_refl) as [e X]. exists e. rewrite RF'. exact X.
        - exact EI2.
        - rewrite F7. exact EI2.
        - rewrite AI'. exact EA.
        - eapply no_token_in_response; [exact CU|exact CO2|exact AR|exact EA]. }
      unfold valid_until in *. rewrite X3 in R. exact R.
    - intros now. destruct (msg_new_total cMessage (msg_to_dict cTokenResponse m2) eq_refl) as [it2 EI2].
      assert (PV : dget (verified (verified "id_token")) m2 = None).
      { transitivity (dget (verified (verified "id_token")) (with_id_token o m0)).
        - pose proof (expires_spec _ _ _ F4) as EX. destruct (dget "expires_in" (with_id_token o m0)); [destruct EX as (n & _ & ->); apply dget_dset_neq; discriminate|now rewrite EX].
        - rewrite with_id_get by discriminate. apply G0; [exact I|discriminate|exact P3]. }
      assert (PI : dget (verified "id_token") m2 = dget (verified "id_token") (with_id_token o m0)).
      { pose proof (expires_spec _ _ _ F4) as EX. destruct (dget "expires_in" (with_id_token o m0)); [destruct EX as (n & _ & ->); apply dget_dset_neq; discriminate|now rewrite EX]. }
      destruct o as [idt2|].
      + intros z Hz. eapply (active_of_items (sdb c') k (VStr iss) m2 it2 idt2 z now L2 Hk F5); [|intros i1 E1; exact (item_value cTokenResponse cTokenResponse m2 i1 (verified (verified "id_token")) None eq_refl eq_refl eq_refl eq_refl eq_refl F5 E1 I PV)|exact Hz|exact EI2|rewrite F7; exact EI2|rewrite RF'; exact RFM].
        rewrite PI. apply dget_dset_eq.
      + assert (PN : dget (verified "id_token") m2 = None) by (rewrite PI; apply G0; [exact I|discriminate|exact P2]).
        unfold has_active_authentication. rewrite (nothing_there k (VStr iss) (sdb c') (verified "id_token") Hk L2); [reflexivity|].
        intros t jt Ht Hj. unfold offer. destruct Ht as [<-|[<-|[<-|[]]]].
        * rewrite AI' in Hj. assert (Q : forall p, p <> "scope" -> dget p resp = None -> dget p jt = None).
          { intros p Hs Hp. assert (NA : NoDup (dkeys ar)) by (apply (msg_new_NoDup cAuthzResponse resp ar); [constructor|exact AR]).
            assert (PA : dget p ar = None) by (rewrite (msg_new_get _ _ _ CU AR), Hp; reflexivity).
            apply (item_value cAuthzResponse cMessage ar jt p None eq_refl eq_refl eq_refl eq_refl); [cbn; now rewrite (eqb_neq p "scope") by exact Hs|exact NA|exact Hj|exact I|exact PA]. }
          assert (Q1 : dget (verified (verified "id_token")) jt = None) by (apply Q; [discriminate|exact CO3]). rewrite Q1. apply Q; [discriminate|exact CV].
        * rewrite F7 in Hj. rewrite (item_value cTokenResponse cMessage m2 jt (verified (verified "id_token")) None eq_refl eq_refl eq_refl eq_refl eq_refl F5 Hj I PV).
          exact (item_value cTokenResponse cMessage m2 jt (verified "id_token") None eq_refl eq_refl eq_refl eq_refl eq_refl F5 Hj I PN).
        * rewrite RF', RFM in Hj. discriminate.
  Qed.
End Refreshed.
