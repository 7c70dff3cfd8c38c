(** More proofs for T_Handler.v *)
From Verif Require Import Base BaseP Json JsonP Msg M_State S_State P_State M_Ctx M_Codec M_Authz M_ClientAuth
  M_Service M_Token M_Handler S_Service S_Token S_Handler S_Flow S_Trace P_Ctx P_Authz P_Codec P_ClientAuth P_Service P_Wire P_Token
  P_Handler P_Flow P_Token2 P_Trace P_Flow2 P_Handler2 P_Handler3.

(** ** where items come from *)
Lemma latest_item_store h k t i : latest_item h k t = Some i -> exists c m, In (Store c m t k) h.
Proof.
  induction h as [|o h IH]; [discriminate|]. cbn [latest_item]. destruct o as [rnd iss key|c m t' k'|x v k'|k'].
  - destruct (created_key rnd key =?s k); [discriminate|]. intros H. destruct (IH H) as (a & b & A). exists a, b. now right.
  - destruct ((k' =?s k) && (t' =?s t)) eqn:E.
    + intros _. apply andb_prop in E. destruct E as [E1 E2]. apply String.eqb_eq in E1, E2. subst. exists c, m. now left.
    + intros H. destruct (IH H) as (a & b & A). exists a, b. now right.
  - intros H. destruct (IH H) as (a & b & A). exists a, b. now right.
  - destruct (k' =?s k); [discriminate|]. intros H. destruct (IH H) as (a & b & A). exists a, b. now right.
Qed.
(** the calls that can have written an item *)
Definition may_store (o : call) (t k : string) : Prop :=
  match o with
  | CInit W _ _ => e_state W = k /\ In t ["auth_request"; "pkce"]
  | CFinalize _ _ _ _ => In t ["auth_response"; "token_response"; "user_info"]
  | CFinalizeAuth _ _ _ => t = "auth_response"
  | CTokens _ st | CRefresh _ st _ => st = k /\ t = "token_response"
  | CUserInfo _ st _ => st = k /\ t = "user_info"
  | CLogout _ _ _ | CClear _ => False
  end.
Lemma item_provenance cl os c k t cc i : plain_client cl -> Forall call_ok os -> sdb c = [] -> rnd32 k -> t <> "iss" ->
  get_item (sdb (run_calls cl os c)) cc t k = Ok i -> exists o, In o os /\ may_store o t k.
Proof.
  intros PC OK E K Ht H. destruct (calls_ops cl os c PC OK E) as (ops & O1 & O2 & O3). rewrite O3 in H.
  destruct (store_observations rnd32 ops rnd32_family O1) as [S _]. specialize (S k cc t K Ht).
  destruct (latest_item (rev ops) k t) as [j|] eqn:L; [|destruct S as [e S]; rewrite H in S; discriminate].
  destruct (latest_item_store _ _ _ _ L) as (c0 & m0 & A). apply in_rev in A.
  destruct (O2 _ A) as (o & I & C). exists o. split; [exact I|]. destruct o; cbn in C |- *.
  - now destruct C as [-> C].
  - destruct C as [(s & _ & [(? & ? & ? & D)|(? & [[(? & ? & D)|(? & ? & D)]|(? & ? & D)])])|(? & ? & ? & ? & ? & ? & ? & ? & ? & ? & ? & ? & ? & ? & [(? & ? & [(? & D)|(? & D)])|(? & ? & D)])]; try discriminate; injection D as _ _ -> _; auto.
  - destruct C as (s & _ & ? & ? & ? & D). now injection D as _ _ -> _.
  - destruct C as [(? & ? & D)|(? & ? & D)]; [|discriminate]. now injection D as _ _ -> ->.
  - destruct C as (? & ? & D). now injection D as _ _ -> ->.
  - destruct C as (? & ? & D). now injection D as _ _ -> ->.
  - destruct C as (? & D). discriminate.
  - discriminate.
Qed.
Lemma no_refresh_item cl os c k cc i : plain_client cl -> Forall call_ok os -> sdb c = [] -> rnd32 k ->
  get_item (sdb (run_calls cl os c)) cc "refresh_token_response" k <> Ok i.
Proof.
  intros PC OK E K H. destruct (item_provenance cl os c k "refresh_token_response" cc i PC OK E K ltac:(discriminate) H) as (o & _ & M).
  destruct o; cbn in M; try contradiction; intuition discriminate.
Qed.

(** ** C17: the whole call *)
Lemma parse_response_post jwt s inf fmt st c r c' : parse_response jwt s inf fmt st c = (r, c') ->
  (c' = c /\ match r with Ok m => is_error_message m = true | Err _ => True end) \/
  exists m0 v r0, is_error_message m0 = false /\ s_vrf s c m0 = Ok v /\ s_post_parse s v st c = (r0, c') /\
    (r = r0 \/ (r0 = Ok [] /\ r = Err ResponseError)).
Proof.
  unfold parse_response, bind, lift, ret, raise. intros H.
  destruct (mem_str _ _); [injection H as <- <-; auto|].
  match type of H with context [match ?x with Ok _ => _ | Err _ => _ end] => destruct x as [m0|e] eqn:E end;
    [|injection H as <- <-; auto].
  destruct (is_error_message m0) eqn:Ee.
  - left. destruct m0; injection H as <- <-; auto.
  - destruct (s_vrf s c m0) as [v|] eqn:Ev; [|injection H as <- <-; auto].
    destruct (s_post_parse s v st c) as [r0 c1] eqn:Ep. right. exists m0, v, r0. split; [exact Ee|]. split; [exact Ev|].
    destruct r0 as [[|kv m]|]; injection H as <- <-; auto.
Qed.
Definition no_empty_post (s : service) (c : ctx) : Prop := forall v, exists e, s_post_parse s v "" c = (Err e, c).
Lemma parse_response_empty jwt s inf fmt c r c' : no_empty_post s c -> parse_response jwt s inf fmt "" c = (r, c') ->
  c' = c /\ match r with Ok m => is_error_message m = true | Err _ => True end.
Proof.
  intros NE H. destruct (parse_response_post _ _ _ _ _ _ _ _ H) as [A|(m0 & v & r0 & A1 & A2 & A3 & A4)]; [exact A|].
  destruct (NE v) as [e E]. rewrite E in A3. injection A3 as <- <-. destruct A4 as [->|[? _]]; [auto|discriminate].
Qed.
Lemma get_response_post http jwt s u m b rbt h st c r c' : no_empty_post s c ->
  get_response http jwt s u m b rbt h st c = (r, c') ->
  (c' = c /\ match r with Ok (RMsg x) => dhas "error" x = true | _ => True end) \/
  exists m0 v r0, is_error_message m0 = false /\ s_vrf s c m0 = Ok v /\ s_post_parse s v st c = (r0, c') /\
    match r0 with Ok x => r = Ok (RMsg x) \/ (x = [] /\ r = Err ResponseError) | Err e => r = Err e end.
Proof.
  intros NE. unfold get_response. intros H. destruct (http u m b h) as [resp|e]; [|injection H as <- <-; auto].
  destruct (_ && _); [injection H as <- <-; auto|].
  match type of H with context [if ?x then _ else _] => destruct x eqn:EB end; [injection H as <- <-; auto|]. clear EB.
  match type of H with context [parse_request_response _ _ _ ?x _ _] => generalize dependent x end. intros rbt' H.
  unfold parse_request_response in H. destruct (zmem _ SUCCESSFUL).
  { unfold bind, ret in H. destruct (parse_response _ _ _ _ st c) as [r1 c1] eqn:E.
    destruct (parse_response_post _ _ _ _ _ _ _ _ E) as [[-> A]|(m0 & v & r0 & A1 & A2 & A3 & A4)].
    - left. destruct r1; injection H as <- <-; auto.
    - right. exists m0, v, r0. split; [exact A1|]. split; [exact A2|]. destruct A4 as [->|[-> ->]].
      + destruct r0; injection H as <- <-; auto.
      + injection H as <- <-. auto. }
  destruct (zmem _ _); [injection H as <- <-; auto|]. destruct (_ =? _)%Z; [injection H as <- <-; auto|].
  destruct (_ && _); [|injection H as <- <-; auto]. left.
  match type of H with context [parse_response ?a ?b ?x ?d ?e ?f] => destruct (parse_response a b x d e f) as [r1 c1] eqn:E1 end.
  destruct (parse_response_empty _ _ _ _ _ _ _ NE E1) as [-> A1].
  destruct r1 as [m1|e1].
  - injection H as <- <-. split; [reflexivity|]. unfold is_error_message in A1. now rewrite dhas_dset, A1, orb_true_r.
  - destruct e1; try (injection H as <- <-; auto; fail).
    destruct (_ =?s _); [injection H as <- <-; auto|].
    match type of H with context [parse_response ?a ?b ?x ?d ?e ?f] => destruct (parse_response a b x d e f) as [r2 c2] eqn:E2 end.
    destruct (parse_response_empty _ _ _ _ _ _ _ NE E2) as [-> A2].
    destruct r2 as [m2|e2].
    + injection H as <- <-. split; [reflexivity|]. unfold is_error_message in A2. now rewrite dhas_dset, A2, orb_true_r.
    + destruct e2; injection H as <- <-; auto.
Qed.
Lemma userinfo_fields W cl : let s := userinfo_svc W cl in
  s_extra s = [] /\ s_http_method s = "GET" /\ s_endpoint s = "" /\ s_endpoint_name s = "userinfo_endpoint" /\ s_name s = "userinfo" /\
  s_vrf s = e_vrf W "userinfo" /\ s_post_parse s = userinfo_post_parse (e_agg W) /\ s_update s = pass /\
  s_cls s = cMessage /\ s_gather s = no_gather /\ s_post s = [] /\ s_pre s = [userinfo_pre; carry_state].
Proof. repeat split. Qed.
Lemma pure_userinfo_grp W cl args au kw : pure (get_request_parameters (e_authn W) (userinfo_svc W cl) args "" "" au kw).
Proof.
  apply pure_grp; [reflexivity|]. apply pure_construct.
  - intros m Hm a p kw' c. cbn in Hm. destruct Hm as [<-|[<-|[]]]; reflexivity.
  - intros m Hm. contradiction.
Qed.
Lemma post_parse_empty agg v c : closed rnd32 (sdb c) -> exists e, userinfo_post_parse agg v "" c = (Err e, c).
Proof.
  intros C. apply closed_empty in C; [|apply rnd32_family].
  unfold userinfo_post_parse, bind, read_db. unfold multiple_extend_request_args. rewrite C. cbn. eauto.
Qed.
Lemma user_info_changes W cl st tok c r c' : closed rnd32 (sdb c) -> get_user_info W cl st tok c = (r, c') ->
  (c' = c /\ forall m, r <> Ok (RMsg m)) \/
  exists m0 v m, is_error_message m0 = false /\ e_vrf W "userinfo" c m0 = Ok v /\
    userinfo_post_parse (e_agg W) v st c = (Ok m, c') /\ (r = Ok (RMsg m) \/ exists e, r = Err e).
Proof.
  intros CL. unfold get_user_info. intros H.
  assert (H' : exists r1, ((exists e, r = Err e /\ c' = c) \/
     (do_request_named W cl (userinfo_svc W cl) [("access_token", VStr tok)] "" [("state", VStr st)] c = (r1, c') /\
      r = match r1 with Ok x => if is_error_response x then Err OidcServiceError else Ok x | Err e => Err e end))).
  { unfold bind at 1 in H. destruct (tok =?s "").
    - unfold bind at 1, read_db in H. destruct (multiple_extend_request_args _ _ _ _ _ _) as [a|e].
      + unfold ret at 1 in H. unfold bind in H. destruct (do_request_named _ _ _ _ _ _ c) as [r1 c1] eqn:E.
        destruct r1 as [x|e]; [destruct (is_error_response x) eqn:EX|]; unfold raise, ret in H; injection H as <- <-; eexists; right; (split; [reflexivity|]); cbv beta iota; rewrite ?EX; reflexivity.
      + injection H as <- <-. exists (Err e). left. eauto.
    - unfold ret at 1 in H. unfold bind in H. destruct (do_request_named _ _ _ _ _ _ c) as [r1 c1] eqn:E.
      destruct r1 as [x|e]; [destruct (is_error_response x) eqn:EX|]; unfold raise, ret in H; injection H as <- <-; eexists; right; (split; [reflexivity|]); cbv beta iota; rewrite ?EX; reflexivity. }
  clear H. destruct H' as (r1 & [(e & -> & ->)|[H ->]]); [left; split; [reflexivity|discriminate]|].
  unfold do_request_named in H. destruct (has_service _ _); [|injection H as <- <-; left; split; [reflexivity|discriminate]].
  apply do_request_inv in H. pose proof (pure_userinfo_grp W cl [("access_token", VStr tok)] "" [("state", VStr st)] c) as P.
  destruct H as [(e & B1 & ->)|(i & c2 & B1 & B2)]; rewrite B1 in P; cbn in P; [left; split; [exact P|discriminate]|]. subst c2. clear B1.
  unfold service_request in B2. unfold bind in B2.
  match type of B2 with context [get_response ?a ?b ?x ?d ?e ?f ?g ?h ?i ?j] => destruct (get_response a b x d e f g h i j) as [r2 c2] eqn:G end.
  destruct (userinfo_fields W cl) as (F1 & F2 & F3 & F4 & F5 & F6 & F7 & F8 & _).
  assert (NE : no_empty_post (userinfo_svc W cl) c) by (intros v; rewrite F7; now apply post_parse_empty).
  apply (get_response_post _ _ _ _ _ _ _ _ _ _ _ _ NE) in G. cbv iota in G.
  destruct G as [[-> G]|(m0 & v & r0 & G1 & G2 & G3 & G4)].
  - left. destruct r2 as [x|e].
    + destruct (has_error x) eqn:EX.
      * injection B2 as <- <-. split; [reflexivity|]. intros m. unfold is_error_response. rewrite EX. discriminate.
      * destruct x as [x|x|x].
        -- cbn in EX. congruence.
        -- injection B2 as <- <-. split; [reflexivity|]. intros m. unfold is_error_response. rewrite EX. discriminate.
        -- destruct (s_redirect (userinfo_svc W cl)) eqn:ER; [cbn in ER; discriminate|]. injection B2 as <- <-. split; [reflexivity|]. intros m. unfold is_error_response. rewrite EX. discriminate.
    + injection B2 as <- <-. split; [reflexivity|discriminate].
  - rewrite F7 in G3. rewrite F6 in G2. destruct r0 as [x|e].
    + right. exists m0, v, x. split; [exact G1|]. split; [exact G2|]. destruct G4 as [->|[-> ->]].
      * destruct (has_error (RMsg x)) eqn:EX.
        -- injection B2 as <- <-. split; [exact G3|]. right. unfold is_error_response. rewrite EX. eauto.
        -- rewrite F8 in B2. unfold pass, ret in B2. injection B2 as <- <-. split; [exact G3|]. unfold is_error_response. rewrite EX. auto.
      * injection B2 as <- <-. split; [exact G3|]. eauto.
    + subst r2. pose proof (userinfo_post_parse_spec _ _ _ _ _ _ G3) as U. cbn in U. subst c2. injection B2 as <- <-.
      left. split; [reflexivity|discriminate].
Qed.
Lemma closed_reach' cl os c : plain_client cl -> Forall call_ok os -> sdb c = [] -> closed rnd32 (sdb (run_calls cl os c)).
Proof. exact (closed_reach cl os c). Qed.
Lemma user_info_sub W cl st tok c r c' idt sub : closed rnd32 (sdb c) ->
  session_id_token (sdb c) st = Some (VDict idt) -> dget "sub" idt = Some sub ->
  get_user_info W cl st tok c = (r, c') ->
  (c' = c /\ forall m, r <> Ok (RMsg m)) \/
  exists m0 v m, e_vrf W "userinfo" c m0 = Ok v /\ dget "sub" v = Some sub /\
    (r = Ok (RMsg m) \/ exists e, r = Err e) /\
    (forall cc, get_item (sdb c') cc "user_info" st = msg_new cc (msg_to_dict cMessage m)) /\
    (forall k, k <> st -> dget k (sdb c') = dget k (sdb c)) /\
    (~ In "sub" (aggregated_names v) -> ~ In "_claim_names" (aggregated_names v) -> dget "sub" m = Some sub).
Proof.
  intros CL S1 S2 H. destruct (user_info_changes _ _ _ _ _ _ _ CL H) as [G|(m0 & v & m & _ & G2 & G3 & G4)]; [now left|].
  right. exists m0, v, m. split; [exact G2|]. pose proof (userinfo_post_parse_spec _ _ _ _ _ _ G3) as U. cbn in U.
  destruct U as (U1 & U2 & U3). destruct (U3 _ _ S1 S2) as [U4 U5]. auto 10.
Qed.
Lemma user_info_wrong_sub W cl st tok c r c' idt sub : closed rnd32 (sdb c) ->
  session_id_token (sdb c) st = Some (VDict idt) -> dget "sub" idt = Some sub ->
  (forall m0 v, e_vrf W "userinfo" c m0 = Ok v -> dget "sub" v <> Some sub) ->
  get_user_info W cl st tok c = (r, c') -> c' = c /\ forall m, r <> Ok (RMsg m).
Proof.
  intros CL S1 S2 S3 H. destruct (user_info_sub _ _ _ _ _ _ _ _ _ CL S1 S2 H) as [G|(m0 & v & m & G1 & G2 & _)]; [exact G|].
  now destruct (S3 _ _ G1).
Qed.

(** ** C44 *)
Lemma all_none (m : msg) : (forall p, dget p m = None) -> m = [].
Proof. destruct m as [|[k v] m]; [reflexivity|]. intros H. specialize (H k). cbn in H. rewrite String.eqb_refl in H. discriminate. Qed.
Lemma userinfo_construct W cl st tok c req c' : dget "pre_construct" (conf_of cl "userinfo") = None ->
  construct (userinfo_svc W cl) [("access_token", VStr tok)] [("state", VStr st)] c = (Ok req, c') ->
  c' = c /\ NoDup (dkeys req) /\ forall p, dget p req = if ("access_token" =?s p) && negb (tok =?s "") then Some (VStr tok) else None.
Proof.
  intros PC H. destruct (userinfo_fields W cl) as (_ & _ & _ & _ & _ & _ & _ & _ & F1 & F2 & F3 & F4).
  assert (F5 : s_conf (userinfo_svc W cl) = conf_of cl "userinfo") by reflexivity.
  generalize dependent (userinfo_svc W cl). intros s H F1 F2 F3 F4 F5.
  apply construct_inv in H. destruct H as (a & post & c1 & out & req0 & H1 & H2 & H3 & H4).
  unfold do_post_construct in H4. rewrite F3 in H4. cbn [run_post] in H4. unfold ret in H4. injection H4 as <- ->.
  unfold do_pre_construct in H1. rewrite F4, method_args_plain in H1 by (rewrite F5; exact PC). cbn [run_pre] in H1.
  apply bind_ok in H1. destruct H1 as ([a1 p1] & d1 & E1 & H1). cbn [fst snd] in H1.
  unfold userinfo_pre in E1. cbn in E1. injection E1 as <- <- <-.
  apply bind_ok in H1. destruct H1 as ([a2 p2] & d2 & E2 & H1). cbn [fst snd] in H1.
  unfold carry_state in E2. cbn in E2. injection E2 as <- <- <-. unfold ret in H1. injection H1 as <- <- <-.
  split; [reflexivity|].
  assert (SD : state_default s [("state", VStr st)] [("access_token", VStr tok)] = [("access_token", VStr tok)]) by (unfold state_default; rewrite F1; reflexivity).
  rewrite SD in H2. destruct (gather_any _ _ _ _ F2 H2) as [NO GO].
  assert (N1 : NoDup (dkeys [("access_token", VStr tok)])) by (cbn; constructor; [easy|constructor]). specialize (NO N1). rewrite F1 in H3.
  split; [eapply msg_new_NoDup; [|exact H3]; constructor|]. intros p. rewrite (msg_new_get _ _ _ NO H3).
  destruct (String.eqb_spec "access_token" p) as [<-|Np].
  - rewrite (GO "access_token" (VStr tok) eq_refl). unfold skipped. destruct tok; reflexivity.
  - cbn [andb]. assert (O : dget p out = None).
    { destruct (gather_spec _ _ _ _ F2 H2) as [_ G]. destruct (G p) as (_ & _ & G3). apply G3; [cbn; now rewrite eqb_neq by assumption|]. rewrite F1. intros []. }
    now rewrite O.
Qed.

Lemma userinfo_grp W cl st tok c r c' : dget "pre_construct" (conf_of cl "userinfo") = None ->
  get_request_parameters (e_authn W) (userinfo_svc W cl) [("access_token", VStr tok)] "" "" "" [("state", VStr st)] c = (r, c') ->
  c' = c /\ match r with
  | Err _ => True
  | Ok i => tok <> "" /\ i_method i = "GET" /\ i_body i = None /\ dget "Authorization" (i_headers i) = Some ("Bearer " ++ tok)%string /\
      dget "userinfo_endpoint" (provider_info c) = Some (VStr (i_url i))
  end.
Proof.
  intros PC H. pose proof (pure_userinfo_grp W cl [("access_token", VStr tok)] "" [("state", VStr st)] c) as P. rewrite H in P. cbn in P. subst c'.
  split; [reflexivity|]. destruct r as [i|]; [|exact I].
  destruct (userinfo_fields W cl) as (F1 & F2 & F3 & F4 & F5 & _ & _ & _ & F6 & _).
  assert (FA : forall c, s_authn (userinfo_svc W cl) c = "bearer_header") by reflexivity.
  assert (GE : get_endpoint (userinfo_svc W cl) c = dict_get "userinfo_endpoint" (provider_info c)) by reflexivity.
  apply grp_inv in H. cbv zeta in H. destruct H as (req0 & c1 & h & req1 & ep & H1 & H2 & H3 & H4 & H5 & H6 & H7).
  destruct (userinfo_construct _ _ _ _ _ _ _ PC H1) as (-> & N & G). clear H1.
  cbn [eqs String.eqb] in *. rewrite F2 in *. rewrite FA in *. cbn in H7. destruct H7 as [H7 H8].
  unfold get_headers in H2. rewrite F1 in H2. unfold bind, asks, ret, run_headers in H2. cbn [eqs String.eqb] in H2.
  match type of H2 with context [get_authn_header ?a ?b ?d ?e ?f ?g] => destruct (get_authn_header a b d e f g) as [[h1 r1]|] eqn:E1 end; [|discriminate].
  cbn [fst snd] in H2. injection H2 as -> ->. unfold get_authn_header in E1. rewrite F5 in E1. cbn [eqs String.eqb] in E1. unfold rbind in E1.
  match type of E1 with context [authenticate ?a ?b ?x ?d ?e ?f ?g ?h ?k] => destruct (authenticate a b x d e f g h k) as [[ha r]|] eqn:AU end; [|discriminate].
  injection E1 as <- <-. assert (AU' := AU). change (bearer_header "userinfo" c (dset "authn_endpoint" (VStr (s_endpoint_name (userinfo_svc W cl))) (if issuer c =?s "" then [("state", VStr st)] else dset "iss" (VStr (issuer c)) [("state", VStr st)])) None req0 = Ok (ha, r)) in AU'.
  destruct (bearer_header_spec _ _ _ _ _ _ _ AU') as (t & hs & T1 & T2 & T3 & T4 & _).
  unfold find_token in T1. cbn [eqs String.eqb] in T1.
  pose proof (G "access_token") as GA. cbn [eqs String.eqb andb] in GA. destruct (tok =?s "") eqn:ET.
  - exfalso. cbn [negb] in GA. change ("userinfo" =?s "refresh_token") with false in T1. cbv iota in T1. rewrite GA in T1.
    destruct (issuer c =?s ""); cbn in T1; discriminate.
  - change ("userinfo" =?s "refresh_token") with false in T1. cbv iota in T1. change ("access_token" =?s "access_token") with true in GA. cbn [andb negb] in GA.
    rewrite GA in T1. injection T1 as <- <-.
    assert (RE : ddel "access_token" req0 = []).
    { apply all_none. intros p. destruct (String.eqb_spec "access_token" p) as [<-|Np]; [apply dget_ddel_same|].
      rewrite dget_ddel_other by assumption. rewrite G, eqb_neq by assumption. reflexivity. }
    split; [now apply String.eqb_neq|]. split; [exact H4|]. split; [exact H7|]. rewrite H8, T3. split; [exact T4|].
    change (dget "endpoint" [("state", VStr st)]) with (@None val) in H3. cbv iota in H3. rewrite GE in H3. unfold dict_get in H3.
    rewrite RE in H6. cbn in H6. injection H6 as <-. destruct (dget "userinfo_endpoint" (provider_info c)); [congruence|discriminate].
Qed.
Lemma user_info_sends W cl st tok c ep : dget "pre_construct" (conf_of cl "userinfo") = None -> tok <> "" ->
  dget "userinfo_endpoint" (provider_info c) = Some (VStr ep) ->
  only_sends (fun http => get_user_info (with_http W http) cl st tok) c (userinfo_wire tok ep).
Proof.
  intros PC Ne EP http1 http2 HH. unfold get_user_info. rewrite (eqb_neq _ _ Ne). unfold bind at 1 3, ret at 1 3.
  unfold do_request_named. change (userinfo_svc (with_http W http1) cl) with (userinfo_svc W cl). change (userinfo_svc (with_http W http2) cl) with (userinfo_svc W cl).
  destruct (has_service cl (s_name (userinfo_svc W cl))); [|reflexivity].
  assert (S : only_sends (fun http => do_request (e_authn W) http (e_jwt W) (userinfo_svc W cl) "" [("access_token", VStr tok)] "" [("state", VStr st)]) c (userinfo_wire tok ep)).
  { apply do_request_sends. intros i c1 G. destruct (userinfo_grp _ _ _ _ _ _ _ PC G) as (-> & _ & G1 & G2 & G3 & G4).
    split; [congruence|]. auto. }
  specialize (S http1 http2 HH). cbv beta in S.
  exact (f_equal (fun x : res response * ctx => let (r, c') := x in match r with Ok a => (if is_error_response a then raise OidcServiceError else ret a) c' | Err e => (Err e, c') end) S).
Qed.
Lemma user_info_without_token W cl st c : dget "pre_construct" (conf_of cl "userinfo") = None ->
  exists e, get_user_info W cl st "" c = (Err e, c).
Proof.
  intros PC. unfold get_user_info. cbn [eqs String.eqb]. unfold bind at 1. unfold bind at 1. unfold read_db.
  destruct (multiple_extend_request_args _ _ _ _ _ _) as [a|e]; [|eauto]. unfold ret at 1. unfold bind at 1. unfold do_request_named.
  destruct (has_service _ _); [|unfold raise; eauto].
  destruct (do_request (e_authn W) (e_http W) (e_jwt W) (userinfo_svc W cl) "" [("access_token", VStr "")] "" [("state", VStr st)] c) as [r c'] eqn:E.
  apply do_request_inv in E. destruct E as [(e & B1 & ->)|(i & c1 & B1 & B2)].
  - destruct (userinfo_grp _ _ _ _ _ _ _ PC B1) as [-> _]. eauto.
  - destruct (userinfo_grp _ _ _ _ _ _ _ PC B1) as (_ & X & _). now destruct X.
Qed.

(** ** C40: what a refresh stores *)
Lemma pure_refresh_grp W cl args au kw : pure (get_request_parameters (e_authn W) (refresh_svc W cl) args "" "" au kw).
Proof.
  apply pure_grp; [reflexivity|]. apply pure_construct.
  - intros m Hm a p kw' c. cbn in Hm. destruct Hm as [<-|[]]; reflexivity.
  - intros m Hm. contradiction.
Qed.
Lemma refresh_changes W cl st scope c r c' : refresh_access_token W cl st scope c = (r, c') ->
  match r with
  | Err _ => c' = c
  | Ok (RMsg m) => (exists m0 v raw, e_vrf W "refresh_token" c m0 = Ok v /\ (raw = v \/ exists z, raw = dset "status_code" z v) /\
                      add_expires_at (e_now W) raw = Ok m) /\
      (forall cc, get_item (sdb c') cc "token_response" st = msg_new cc (msg_to_dict cTokenResponse m)) /\
      (forall k, k <> st -> dget k (sdb c') = dget k (sdb c)) /\ c' = set_db (sdb c') c
  | Ok _ => c' = c
  end.
Proof.
  intros H. unfold refresh_access_token in H. destruct (client_authn_method c) as [am|e]; [|injection H as <- <-; reflexivity].
  unfold bind in H. fold (refresh_args scope) in H.
  match type of H with context [do_request_named ?a ?b ?x ?d ?e ?f ?g] => destruct (do_request_named a b x d e f g) as [r1 c1] eqn:D end.
  assert (X : (c1 = c /\ match r1 with Ok (RMsg x) => dhas "error" x = true | _ => True end) \/
    exists raw r0, dhas "error" raw = false /\ (exists m0 v, e_vrf W "refresh_token" c m0 = Ok v /\ (raw = v \/ exists z, raw = dset "status_code" z v)) /\
      store_token_response (e_now W) raw st c = (r0, c1) /\ r1 = match r0 with Ok x => Ok (RMsg x) | Err e => Err e end).
  { unfold do_request_named in D. destruct (has_service _ _); [|injection D as <- <-; auto].
    match type of D with context [do_request _ _ _ _ _ ?a ?b ?k] => pose proof (pure_refresh_grp W cl a b k c) as P end.
    apply do_request_inv in D. destruct D as [(e & B1 & ->)|(i & c2 & B1 & B2)]; rewrite B1 in P; cbn in P; [auto|]. subst c2. clear B1.
    assert (RO : reads_only (s_post_parse (refresh_svc W cl))) by (intros m s c2 r2 c3 E; now injection E as _ ->).
    destruct (service_request_spec _ _ _ _ _ _ _ _ _ _ _ _ RO B2) as [G|(resp & raw & C1 & C2 & C3 & r0 & C4 & C5)]; [now left|].
    right. exists raw, r0. split; [exact C2|].
    assert (TV : s_vrf (refresh_svc W cl) = e_vrf W "refresh_token") by reflexivity.
    assert (TP : s_post_parse (refresh_svc W cl) = pass) by reflexivity.
    assert (TU : s_update (refresh_svc W cl) = store_token_response (e_now W)) by reflexivity.
    unfold accepted in C3. rewrite TP, TV in C3. unfold pass, ret in C3. rewrite TU in C4. split; [|split; [exact C4|exact C5]].
    destruct C3 as [[_ (m0 & v & s & D1 & D2 & D3)]|[_ (m1 & (m0 & v & s & D1 & D2 & D3) & D4)]].
    - injection D3 as <-. eauto 6.
    - injection D3 as <-. eauto 8. }
  destruct X as [[-> X]|(raw & r0 & X1 & (m0 & v & X2 & X3) & X4 & ->)].
  - destruct r1 as [[x|x|x]|e].
    + unfold is_error_response in H. cbn [has_error] in H. rewrite X in H. injection H as <- <-. reflexivity.
    + destruct (is_error_response (RText x)); injection H as <- <-; reflexivity.
    + destruct (is_error_response (RHttp x)); injection H as <- <-; reflexivity.
    + injection H as <- <-. reflexivity.
  - pose proof (store_token_effect _ _ _ _ _ _ X4) as S. destruct r0 as [m|e].
    + destruct S as (S1 & S2 & S3 & _ & _ & S4).
      assert (NE : dhas "error" m = false).
      { pose proof (expires_spec _ _ _ S1) as EX. destruct (dget "expires_in" raw); [destruct EX as (n & _ & ->); rewrite dhas_dset, X1; reflexivity|now subst]. }
      unfold is_error_response in H. cbn [has_error] in H. rewrite NE in H. injection H as <- <-. split; [eauto 8|]. auto.
    + injection H as <- <-. exact S.
Qed.

(** ** C43 *)
From Verif Require Import S_Route P_Route.
Lemma remove_refs_gone refs k : forall d, dget k d = None -> dget k (snd (remove_refs refs d)) = None.
Proof.
  induction refs as [|[x v] refs IH]; intros d H; [exact H|]. cbn [remove_refs].
  repeat (match goal with |- context [match ?x with _ => _ end] => destruct x end; try exact H).
  all: try (apply IH); try (rewrite dget_ddel; match goal with |- context [if ?b then _ else _] => destruct b end; auto).
Qed.
Lemma remove_gone k d : dget k (snd (remove_state k d)) = None.
Proof.
  unfold remove_state, dhas. destruct (dget k d) eqn:E; [|exact E].
  assert (G : dget k (ddel k d) = None) by apply dget_ddel_same.
  repeat (match goal with |- context [match ?x with _ => _ end] => destruct x end; try exact G).
  now apply remove_refs_gone.
Qed.
Lemma clear_session h0 os i k r h' : fresh_handler h0 -> Forall hcall_ok os -> rnd32 k -> begun_only_at k i os ->
  knows (run_hcalls h0 os) i k -> h_clear k (run_hcalls h0 os) = (r, h') ->
  let h := run_hcalls h0 os in
  (forall j, ~ knows h' j k) /\ state2issuer h' k = Ok None /\ client_of_session h' k = Err (KeyError "None") /\
  dkeys h' = dkeys h /\ (forall j, j <> i -> dget j h' = dget j h) /\
  (forall cl, dget i h = Some cl -> exists cl', dget i h' = Some cl' /\ cl_ctx cl' = set_db (sdb (cl_ctx cl')) (cl_ctx cl) /\
     forall k', rnd32 k' -> k' <> k -> get_state (sdb (cl_ctx cl')) k' = get_state (sdb (cl_ctx cl)) k').
Proof.
  intros FR OK HK BO KN H h. fold h in KN, H.
  destruct (route_known h0 os i k FR OK HK BO KN) as [_ RC]. fold h in RC.
  assert (OK' : Forall hcall_ok (os ++ [HClear k])) by (apply Forall_app; split; [exact OK|constructor; [exact HK|constructor]]).
  assert (RH : run_hcalls h0 (os ++ [HClear k]) = h').
  { unfold run_hcalls. rewrite fold_left_app. cbn [fold_left run_hcall]. fold (run_hcalls h0 os). fold h. now rewrite H. }
  assert (KE : dkeys h' = dkeys h) by (rewrite <- RH; unfold h; now rewrite !hcalls_keys).
  destruct (route_unknown h0 (os ++ [HClear k]) k FR OK' HK) as [U1 U2]. rewrite RH in U1, U2.
  unfold h_clear, on_session in H. rewrite RC in H. unfold on_client in H.
  destruct KN as (cl & v & K1 & K2). rewrite K1 in H. unfold on_db in H.
  pose proof (remove_gone k (sdb (cl_ctx cl))) as RG.
  destruct (remove_state k (sdb (cl_ctx cl))) as [r0 d'] eqn:ER. cbn [snd] in RG.
  assert (HE : h' = dset i (set_ctx (set_db d' (cl_ctx cl)) cl) h) by (destruct r0; congruence). clear H.
  assert (OT : forall j, j <> i -> dget j h' = dget j h) by (intros j Nj; rewrite HE; apply dget_dset_neq; congruence).
  assert (ME : dget i h' = Some (set_ctx (set_db d' (cl_ctx cl)) cl)) by (rewrite HE; apply dget_dset_eq).
  assert (NK : forall j, ~ knows h' j k).
  { intros j (cl' & w & J1 & J2). destruct (String.eqb_spec j i) as [->|Nj].
    - rewrite ME in J1. injection J1 as <-. cbn in J2. unfold get_iss, get_state in J2. rewrite RG in J2. discriminate.
    - rewrite OT in J1 by assumption. destruct (client_iss h0 os j cl' k FR OK HK J1) as [[_ (W & reqs & beh & I1 & I2)]|[e E]]; [|congruence].
      apply Nj. eapply BO; eassumption. }
  split; [exact NK|]. split; [now apply U1|]. split; [now apply U2|]. split; [exact KE|]. split; [exact OT|].
  intros cl0 E0. rewrite K1 in E0. injection E0 as <-. eexists. split; [exact ME|]. split; [reflexivity|]. intros k' HK' Nk. cbn.
  pose proof (sessions_isolated rnd32 (sdb (cl_ctx cl)) (Remove k) k k' rnd32_family HK HK' eq_refl (or_introl Nk)) as SI.
  cbn [cstep] in SI. rewrite ER in SI. exact SI.
Qed.
(** logout and close touch only the client of the session *)
Lemma logout_route W h k uri i : client_of_session h k = Ok i ->
  h_logout W k uri h = on_client i (fun cl => logout W cl k uri) h /\ h_close W k i uri h = (if i =?s "" then h_logout W k uri h else h_logout W k uri h).
Proof.
  intros H. unfold h_logout, h_close, on_session. rewrite H. split; [reflexivity|]. destruct (i =?s "") eqn:E; [|reflexivity].
  unfold h_logout, on_session. now rewrite H.
Qed.
Lemma logout_at_client W h k uri i cl r h' : dget i h = Some cl -> on_client i (fun cl => logout W cl k uri) h = (r, h') ->
  exists c', logout W cl k uri (cl_ctx cl) = (r, c') /\ dget i h' = Some (set_ctx c' cl) /\ forall j, j <> i -> dget j h' = dget j h.
Proof.
  intros E H. unfold on_client in H. rewrite E in H. destruct (logout W cl k uri (cl_ctx cl)) as [r0 c'] eqn:L. injection H as <- <-.
  exists c'. split; [reflexivity|]. split; [apply dget_dset_eq|]. intros j Nj. apply dget_dset_neq. congruence.
Qed.

(** ** C18 *)
Lemma bogus_ok vrf request args c req e : 
  (if request =?s "" then msg_new cBCLogout args else msg_from_urlencoded cBCLogout request) = Ok req -> (request = "" -> args <> []) ->
  vrf c req = Err e -> backchannel_logout vrf request args c = Err (if bogus e then MessageException else e).
Proof.
  intros H1 H2 H3. unfold backchannel_logout. destruct (request =?s "") eqn:E.
  - apply String.eqb_eq in E. destruct args; [now destruct H2|]. unfold rbind. rewrite H1. now rewrite H3.
  - unfold rbind. rewrite H1. now rewrite H3.
Qed.
Lemma bc_neither vrf request args c req v claims :
  (if request =?s "" then msg_new cBCLogout args else msg_from_urlencoded cBCLogout request) = Ok req -> (request = "" -> args <> []) ->
  vrf c req = Ok v -> dget (verified "logout_token") v = Some (VDict claims) ->
  backchannel_logout vrf request args c =
  match dget "sub" claims, dget "sid" claims with
  | Some (VStr (String _ _ as s)), _ => get_state_by_sub (sdb c) s
  | Some v, o => if truthy v then Err OtherError else
                 match o with Some (VStr (String _ _ as s)) => get_state_by_sid (sdb c) s
                            | Some w => if truthy w then Err OtherError else Err MessageException | None => Err MessageException end
  | None, Some (VStr (String _ _ as s)) => get_state_by_sid (sdb c) s
  | None, Some w => if truthy w then Err OtherError else Err MessageException
  | None, None => Err MessageException
  end.
Proof.
  intros H1 H2 H3 H4. unfold backchannel_logout.
  assert (X : (if request =?s "" then match args with [] => Err MissingRequiredAttribute | _ => msg_new cBCLogout args end else msg_from_urlencoded cBCLogout request) = Ok req).
  { destruct (request =?s "") eqn:E; [|assumption]. apply String.eqb_eq in E. destruct args; [now destruct H2|assumption]. }
  rewrite X. unfold rbind. rewrite H3. unfold dict_get. rewrite H4.
  destruct (dget "sub" claims) as [[| | |[|a s]|[|x l]|]|]; cbn [otruthy truthy];
    destruct (dget "sid" claims) as [[| | |[|a' s']|[|x' l']|]|]; cbn [otruthy truthy]; try reflexivity.
  all: repeat match goal with |- context [if ?b then _ else _] => destruct b end; reflexivity.
Qed.
Lemma bc_last_bound cl os c vrf request args k : plain_client cl -> Forall call_ok os -> sdb c = [] ->
  backchannel_logout vrf request args (run_calls cl os c) = Ok k ->
  rnd32 k /\ exists o, In o os /\ match o with CFinalize _ _ _ _ => True | CTokens _ st => st = k | _ => False end.
Proof.
  intros PC OK E H. destruct (backchannel_spec _ _ _ _ _ H) as (req & v & claims & _ & _ & _ & B).
  destruct (calls_ops cl os c PC OK E) as (ops & O1 & O2 & O3). rewrite O3 in B.
  assert (X : exists x s, In x ["subject id"; "session id"] /\ In (Bind x s k) ops).
  { destruct B as [(s & _ & _ & B)|(_ & s & _ & _ & B)].
    - exists "subject id", s. split; [now left|]. apply (bind_provenance rnd32 ops "subject id" s k rnd32_family O1 in_sub B).
    - exists "session id", s. split; [right; now left|]. apply (bind_provenance rnd32 ops "session id" s k rnd32_family O1 in_sid B). }
  destruct X as (x & s & X1 & X2). split.
  - rewrite Forall_forall in O1. now destruct (O1 _ X2).
  - destruct (O2 _ X2) as (o & I & C). exists o. split; [exact I|]. destruct o; cbn in C; auto.
    + destruct C as (_ & -> & _). destruct X1 as [?|[?|[]]]; discriminate.
    + destruct C as (? & _ & ? & ? & ? & D). discriminate.
    + destruct C as [(? & ? & D)|(? & ? & D)]; [discriminate|]. congruence.
    + destruct C as (? & ? & D). discriminate.
    + destruct C as (? & ? & D). discriminate.
    + destruct C as (? & D). injection D as -> _ _. destruct X1 as [?|[?|[]]]; discriminate.
    + discriminate.
Qed.

(** ** C12 *)
Lemma flow_sources W cl resp st c t c' rq rt ws sa si :
  get_item (sdb c) cAuthzRequest "auth_request" st = Ok rq -> dget "response_type" rq = Some (VList rt) ->
  words_are rt ws -> In (ws, (sa, si)) flow_table ->
  get_access_and_id_token W cl resp st false c = (Ok t, c') ->
  exists ans,
    (match sa with Endpoint => exists r, get_tokens W cl st c = (Ok r, c') /\ ans = Some (match r with RMsg m => m | _ => [] end)
                 | _ => c' = c /\ ans = None end) /\
    comes_from sa "access_token" resp ans (t_access t) /\ comes_from si (verified "id_token") resp ans (t_id t).
Proof.
  intros H1 H2 H3 H4 H. rewrite (flow_spec _ _ _ _ _ _ _ _ _ _ _ H1 H2 H3 H4) in H.
  assert (EE : (sa = Endpoint /\ si = Endpoint) \/ (sa <> Endpoint /\ si <> Endpoint)).
  { clear - H4. cbn in H4. repeat (destruct H4 as [H4|H4]; [injection H4 as _ <- <-; (left; split; reflexivity) || (right; split; discriminate)|]). contradiction. }
  destruct EE as [[-> ->]|[NA NI]].
  - cbn [front] in H. unfold tokens_from_endpoint in H. apply bind_ok in H. destruct H as (r & c1 & G & H).
    apply bind_ok in H. destruct H as (a & c2 & G2 & H). unfold lift in G2. unfold ret in H. injection H as <- <-.
    destruct (dict_get "access_token" (msg_of r)) as [x|] eqn:D; [|discriminate]. injection G2 as <- <-.
    exists (Some (msg_of r)). split; [exists r; split; [exact G|reflexivity]|]. cbn [t_access t_id comes_from].
    split; eexists; (split; [reflexivity|]).
    + left. unfold dict_get in D. destruct (dget "access_token" (msg_of r)); [congruence|discriminate].
    + destruct (dget (verified "id_token") (msg_of r)); auto.
  - exists None. destruct (front si (verified "id_token") resp) as [i|] eqn:FI; [|discriminate].
    destruct (front sa "access_token" resp) as [a|] eqn:FA; [|discriminate].
    assert (H' : Ok (mktokens a i) = Ok t /\ c = c') by (destruct sa; try (now destruct NA); split; congruence).
    destruct H' as [H' ->]. injection H' as <-. cbn [t_access t_id].
    split; [destruct sa; try (now destruct NA); auto|].
    unfold front, dict_get in FI, FA. split.
    + destruct sa; [|now destruct NA|]; cbn [comes_from]; [destruct (dget "access_token" resp); congruence|congruence].
    + destruct si; [|now destruct NI|]; cbn [comes_from]; [destruct (dget (verified "id_token") resp); congruence|congruence].
Qed.

(** ** C40 for reachable sessions *)
Lemma authn_not c m : ~ auth_method_is c m -> m <> "" -> client_authn_method c <> Ok m.
Proof.
  unfold auth_method_is, client_authn_method. intros H Ne E. destruct (dget "token_endpoint_auth_method" (behaviour c)) as [v|].
  - apply H. exists v. split; [reflexivity|]. destruct v as [| | |s|[|[| | |s| |] r]|]; try discriminate; injection E as ->; eauto.
  - injection E as <-. now apply Ne.
Qed.
Lemma refresh_of_session cl os c0 W st scope ep rt it : plain_client cl -> sdb c0 = [] -> Forall call_ok os -> rnd32 st ->
  dget "pre_construct" (conf_of cl "refresh_token") = None ->
  let c := run_calls cl os c0 in
  get_item (sdb c) cTokenResponse "token_response" st = Ok it -> dget "refresh_token" it = Some (VStr rt) -> rt <> "" ->
  dget (verified "refresh_token") it = None ->
  dget "token_endpoint" (provider_info c) = Some (VStr ep) -> ~ auth_method_is c "bearer_body" ->
  only_sends (fun http => refresh_access_token (with_http W http) cl st scope) c (refresh_wire rt ep).
Proof.
  intros PC E OK HK CF c HI HR Ne HV EP AM. apply (refresh_sends W cl st scope c ep rt it); auto.
  - intros e. now apply no_refresh_item.
  - apply authn_not; [exact AM|discriminate].
Qed.
(** a refresh answer with a refresh token makes it the session's refresh token *)
Lemma refresh_keeps W cl st scope c m c' : refresh_access_token W cl st scope c = (Ok (RMsg m), c') ->
  (forall it, msg_new cTokenResponse (msg_to_dict cTokenResponse m) = Ok it -> get_item (sdb c') cTokenResponse "token_response" st = Ok it).
Proof. intros H it E. destruct (refresh_changes _ _ _ _ _ _ _ H) as (_ & G & _). now rewrite G. Qed.
