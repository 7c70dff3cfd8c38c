(** Proofs for T_Answer.v *)
From Verif Require Import Base BaseP Json Msg M_State M_Ctx M_Codec M_Authz M_ClientAuth M_Service M_Token M_Handler S_Service S_Token S_Handler S_Answer
  P_Ctx P_Service P_Wire P_Token P_Handler P_Flow P_Handler2 P_Handler3 P_Handler4.

Lemma unpack_is c : JwtUnpack (get_alg c "userinfo" "sign") (get_alg c "userinfo" "alg") (get_alg c "userinfo" "enc") (client_id c) = userinfo_unpack c.
Proof. reflexivity. Qed.
Definition settings_kept {A} (m : M A) : Prop := forall c, snd (m c) = set_db (sdb (snd (m c))) c.
Lemma set_db_db (c : ctx) d : sdb (set_db d c) = d.
Proof. reflexivity. Qed.
Lemma sk_pure {A} (m : M A) : (forall c, snd (m c) = c) -> settings_kept m.
Proof. intros H c. rewrite H. symmetry. apply set_db_same. Qed.
Lemma sk_bind {A B} (m : M A) (f : A -> M B) : settings_kept m -> (forall a, settings_kept (f a)) -> settings_kept (bind m f).
Proof.
  intros H1 H2 c. unfold bind. specialize (H1 c). destruct (m c) as [[a|e] c1]; cbn in *; [|exact H1].
  specialize (H2 a c1). destruct (f a c1) as [r d]. cbn in *. rewrite H2 at 1. rewrite H1 at 1. reflexivity.
Qed.
Lemma sk_on_db {A} (f : db -> res A * db) : settings_kept (on_db f).
Proof. intros c. unfold on_db. destruct (f (sdb c)). reflexivity. Qed.
Lemma sk_userinfo agg m st : settings_kept (userinfo_post_parse agg m st).
Proof.
  unfold userinfo_post_parse. repeat (apply sk_bind; [|intros ?]); try apply sk_on_db; apply sk_pure; reflexivity.
Qed.
Lemma sk_parse j s inf fmt st : (forall m st, settings_kept (s_post_parse s m st)) -> settings_kept (parse_response j s inf fmt st).
Proof.
  intros H. unfold parse_response. destruct (mem_str _ _); [apply sk_pure; reflexivity|].
  apply sk_bind; [apply sk_pure; reflexivity|]. intros resp. apply sk_bind.
  - destruct (is_error_message resp); [apply sk_pure; reflexivity|]. intros c.
    destruct (s_vrf s c resp) as [v|e]; [apply (H v st c)|]. cbn. symmetry. apply set_db_same.
  - intros [|]; apply sk_pure; reflexivity.
Qed.
Section TwoLibraries.
Context (s : service) (c0 : ctx) (j1 j2 : jwt_oracle).
Let agree (full : bool) := forall u t, (u = JwtUnpack (get_alg c0 (s_name s) "sign") (get_alg c0 (s_name s) "alg") (get_alg c0 (s_name s) "enc") (client_id c0) \/
  (full = true /\ u = JwtDeserialize (issuer c0))) -> j1 u t = j2 u t.
Lemma parse_agree full inf fmt st c : agree full -> c = set_db (sdb c) c0 -> (full = true \/ fmt = "jwt") ->
  parse_response j1 s inf fmt st c = parse_response j2 s inf fmt st c.
Proof.
  intros A C F. unfold parse_response. destruct (mem_str _ _); [reflexivity|]. unfold bind at 1 3.
  assert (X : (if (if fmt =?s "" then s_resp_type s else fmt) =?s "jwt" then let! d := do_jwt j1 (s_name s) c inf in msg_new (s_rcls s) d
           else do_response j1 (issuer c) (s_rcls s) (if (if fmt =?s "" then s_resp_type s else fmt) =?s "urlencoded" then get_urlinfo inf else inf)
                  (if fmt =?s "" then s_resp_type s else fmt)) =
          (if (if fmt =?s "" then s_resp_type s else fmt) =?s "jwt" then let! d := do_jwt j2 (s_name s) c inf in msg_new (s_rcls s) d
           else do_response j2 (issuer c) (s_rcls s) (if (if fmt =?s "" then s_resp_type s else fmt) =?s "urlencoded" then get_urlinfo inf else inf)
                  (if fmt =?s "" then s_resp_type s else fmt))).
  2:{ now rewrite X. }
  destruct F as [-> | ->].
  - generalize (if fmt =?s "" then s_resp_type s else fmt). intros f. destruct (f =?s "jwt").
    + unfold do_jwt. rewrite A; [reflexivity|]. left. rewrite C. reflexivity.
    + unfold do_response. destruct (f =?s "json"); [|reflexivity]. destruct (msg_from_json _ _); [reflexivity|].
      rewrite A; [reflexivity|]. right. split; [reflexivity|]. rewrite C. reflexivity.
  - cbn [String.eqb eqs]. unfold do_jwt. cbn. rewrite A; [reflexivity|]. left. rewrite C. reflexivity.
Qed.
Context (SK : forall m st, settings_kept (s_post_parse s m st)).
Lemma request_response_agree h rbt st : agree true -> parse_request_response j1 s h rbt st c0 = parse_request_response j2 s h rbt st c0.
Proof.
  intros A. unfold parse_request_response.
  assert (C0 : c0 = set_db (sdb c0) c0) by (symmetry; apply set_db_same).
  destruct (zmem _ _).
  { unfold bind. rewrite (parse_agree true) by (auto using C0). reflexivity. }
  destruct (zmem _ _); [reflexivity|]. destruct (_ =? 500)%Z; [reflexivity|]. destruct (_ && _)%bool; [|reflexivity].
  rewrite (parse_agree true _ _ "" c0) by auto.
  match goal with |- context [parse_response j2 s ?x ?y "" c0] => pose proof (sk_parse j2 s x y "" SK c0) as K; destruct (parse_response j2 s x y "" c0) as [[m|e] c1] end; [reflexivity|].
  cbn in K. destruct e; try reflexivity. destruct (_ =?s rbt); [reflexivity|].
  rewrite (parse_agree true) by auto. reflexivity.
Qed.
End TwoLibraries.
Lemma successful st : (200 <= st <= 206)%Z -> zmem st SUCCESSFUL = true.
Proof. intros H. assert (E : (st = 200 \/ st = 201 \/ st = 202 \/ st = 203 \/ st = 204 \/ st = 205 \/ st = 206)%Z) by lia.
  repeat (destruct E as [->|E]; [reflexivity|]). now subst.
Qed.
Lemma jwt_method r : jwt_answer r -> get_deserialization_method r = "jwt" /\ zmem (h_status r) SUCCESSFUL = true /\
  ((300 <=? h_status r) && (h_status r <? 400))%Z = false /\ (h_status r <? 300)%Z = true.
Proof.
  intros ([H1 H2] & t & H3). split; [|split; [apply successful; lia|split]].
  - unfold get_deserialization_method. rewrite H3. cbn [String.append starts_with]. reflexivity.
  - apply Bool.andb_false_iff. left. apply Z.leb_gt. lia.
  - apply Z.ltb_lt. lia.
Qed.
Lemma service_request_agree j1 j2 http s u m b rbt h st c : (forall m st, settings_kept (s_post_parse s m st)) ->
  (forall x t, (x = JwtUnpack (get_alg c (s_name s) "sign") (get_alg c (s_name s) "alg") (get_alg c (s_name s) "enc") (client_id c) \/
    x = JwtDeserialize (issuer c)) -> j1 x t = j2 x t) ->
  service_request http j1 s u m b rbt h st c = service_request http j2 s u m b rbt h st c.
Proof.
  intros SK A. unfold service_request. unfold bind at 1 3.
  assert (X : forall st, get_response http j1 s u m b rbt h st c = get_response http j2 s u m b rbt h st c).
  { intros st0. unfold get_response. destruct (http u m b h); [|reflexivity]. destruct (_ && _)%bool; [reflexivity|]. destruct (_ && _)%bool; [reflexivity|].
    apply request_response_agree; [exact SK|]. intros x t [H|[_ H]]; apply A; auto. }
  now rewrite X.
Qed.
Lemma service_request_agree_jwt j1 j2 http s u m b rbt h st c :
  (forall r, http u m b h = Ok r -> jwt_answer r) ->
  (forall x t, x = JwtUnpack (get_alg c (s_name s) "sign") (get_alg c (s_name s) "alg") (get_alg c (s_name s) "enc") (client_id c) -> j1 x t = j2 x t) ->
  service_request http j1 s u m b rbt h st c = service_request http j2 s u m b rbt h st c.
Proof.
  intros J A. unfold service_request. unfold bind at 1 3.
  assert (X : forall st, get_response http j1 s u m b rbt h st c = get_response http j2 s u m b rbt h st c).
  { intros st0. unfold get_response. destruct (http u m b h) as [r|]; [|reflexivity]. specialize (J r eq_refl).
    destruct (jwt_method _ J) as (J1 & J2 & J3 & J4). rewrite J3, J4. cbv iota. destruct (true && _)%bool eqn:HH; [reflexivity|]. cbv iota. clear HH.
    unfold parse_request_response. rewrite J1, J2. unfold bind. cbn [mem_str existsb orb].
    rewrite (parse_agree s c j1 j2 false); [reflexivity| |symmetry; apply set_db_same|now right].
    intros x t [H|[H _]]; [now apply A|discriminate]. }
  now rewrite X.
Qed.
Lemma user_info_agree W cl st tok c j1 j2 (P : jwt_use -> Prop) :
  (forall u t, P u -> j1 u t = j2 u t) ->
  (forall i, service_request (e_http W) j1 (userinfo_svc W cl) (i_url i) (i_method i) (i_body i) "json" (i_headers i) (Some st) c =
    service_request (e_http W) j2 (userinfo_svc W cl) (i_url i) (i_method i) (i_body i) "json" (i_headers i) (Some st) c) ->
  get_user_info (with_jwt W j1) cl st tok c = get_user_info (with_jwt W j2) cl st tok c.
Proof.
  intros A S. unfold get_user_info. unfold bind at 1 4.
  destruct ((if tok =?s "" then read_db (fun d => multiple_extend_request_args d [] st ["access_token"] token_items false) ;;; ret tt else ret tt) c) as [[u|e] c1] eqn:E; [|reflexivity].
  assert (c1 = c) as ->.
  { destruct (tok =?s ""); [|now injection E]. unfold bind, read_db, ret in E. destruct (multiple_extend_request_args _ _ _ _ _ _); now injection E. }
  unfold bind at 1. match goal with |- _ = ?R => let R' := eval unfold bind at 1 in R in change R with R' end. unfold do_request_named. change (userinfo_svc (with_jwt W j1) cl) with (userinfo_svc W cl). change (userinfo_svc (with_jwt W j2) cl) with (userinfo_svc W cl).
  destruct (has_service _ _); [|reflexivity].
  assert (D : do_request (e_authn W) (e_http W) j1 (userinfo_svc W cl) "" [("access_token", VStr tok)] "" [("state", VStr st)] c =
              do_request (e_authn W) (e_http W) j2 (userinfo_svc W cl) "" [("access_token", VStr tok)] "" [("state", VStr st)] c).
  { unfold do_request. unfold bind at 1 2. pose proof (pure_userinfo_grp W cl [("access_token", VStr tok)] "" [("state", VStr st)] c) as PU.
    match goal with |- context [get_request_parameters ?a ?b ?x ?d ?e ?f ?g ?h] => destruct (get_request_parameters a b x d e f g h) as [[i|e0] c2] end; [|reflexivity].
    cbn in PU. subst c2. exact (S i). }
  cbn [e_authn e_http e_jwt with_jwt]. now rewrite D.
Qed.
(** what a JWT answer leads to *)
Lemma user_info_jwt W cl st tok c r c' : (forall u m b h x, e_http W u m b h = Ok x -> jwt_answer x) ->
  get_user_info W cl st tok c = (Ok r, c') ->
  exists ans d m0 v m, r = RMsg m /\ (exists u b h, e_http W u "GET" b h = Ok ans) /\ e_jwt W (userinfo_unpack c) (h_text ans) = Ok d /\ msg_new cMessage d = Ok m0 /\
    e_vrf W "userinfo" c m0 = Ok v /\ userinfo_post_parse (e_agg W) v st c = (Ok m, c').
Proof.
  intros J H. unfold get_user_info in H. unfold bind at 1 in H.
  destruct ((if tok =?s "" then read_db (fun d => multiple_extend_request_args d [] st ["access_token"] token_items false) ;;; ret tt else ret tt) c) as [[u|e] c1] eqn:E; [|discriminate].
  assert (c1 = c) as ->.
  { destruct (tok =?s ""); [|now injection E]. unfold bind, read_db, ret in E. destruct (multiple_extend_request_args _ _ _ _ _ _); now injection E. }
  apply bind_ok in H. destruct H as (r1 & c1 & D & H). destruct (is_error_response r1) eqn:IE; [discriminate|]. unfold ret in H. injection H as <- <-.
  unfold do_request_named in D. destruct (has_service _ _); [|discriminate].
  apply do_request_inv in D. destruct D as [(e & _ & X)|(i & c2 & B1 & B2)]; [discriminate|].
  pose proof (pure_userinfo_grp W cl [("access_token", VStr tok)] "" [("state", VStr st)] c) as PU. rewrite B1 in PU. cbn in PU. subst c2.
  change (if "" =?s "" then s_resp_type (userinfo_svc W cl) else "") with "json" in B2.
  unfold service_request in B2. apply bind_ok in B2. destruct B2 as (r2 & c2 & G1 & G2).
  change (match dget "state" [("state", VStr st)] with Some (VStr x) => x | _ => "" end) with st in *.
  unfold get_response in G1. destruct (e_http W (i_url i) (i_method i) (i_body i) (i_headers i)) as [ans|] eqn:HT; [|discriminate].
  destruct (jwt_method _ (J _ _ _ _ _ HT)) as (J1 & J2 & J3 & J4). rewrite J3, J4 in G1. cbn [andb] in G1. change ("json" =?s "") with false in G1. change ("json" =?s "html") with false in G1. cbv iota in G1.
  unfold parse_request_response in G1. rewrite J1, J2 in G1. cbn [mem_str existsb orb] in G1.
  change ("jwt" =?s "json") with false in G1. change ("jwt" =?s "jwt") with true in G1. cbn [orb] in G1. cbv iota in G1.
  apply bind_ok in G1. destruct G1 as (m & c3 & P1 & P2). unfold ret in P2. injection P2 as <- <-.
  assert (r1 = RMsg m /\ c1 = c3) as [-> ->].
  { destruct (has_error (RMsg m)) eqn:HE; [unfold ret in G2; injection G2 as <- <-; auto|]. cbn in G2. unfold pass, bind, ret in G2. now injection G2 as <- <-. }
  unfold parse_response in P1. cbn [eqs String.eqb] in P1. change ("jwt" =?s "") with false in P1. cbv iota in P1.
  change (mem_str "jwt" ["jose"; "jws"; "jwe"]) with false in P1. cbv iota in P1. change ("jwt" =?s "jwt") with true in P1. cbv iota in P1.
  apply bind_ok in P1. destruct P1 as (m0 & c4 & Q1 & Q2).
  unfold do_jwt, rbind in Q1. change (s_name (userinfo_svc W cl)) with "userinfo" in Q1. rewrite unpack_is in Q1.
  destruct (e_jwt W (userinfo_unpack c) (h_text ans)) as [d|] eqn:ED; [|discriminate]. injection Q1 as Q1 <-.
  apply bind_ok in Q2. destruct Q2 as (m1 & c5 & R1 & R2).
  assert (m1 = m /\ c5 = c3) as [-> ->] by (destruct m1; [discriminate|unfold ret in R2; now injection R2 as <- <-]).
  destruct (is_error_message m0) eqn:EM.
  { exfalso. unfold ret in R1. injection R1 as -> ->. unfold is_error_response, has_error in IE. unfold is_error_message in EM. congruence. }
  change (s_vrf (userinfo_svc W cl)) with (e_vrf W "userinfo") in R1. destruct (e_vrf W "userinfo" c m0) as [v|] eqn:EV; [|discriminate].
  exists ans, d, m0, v, m. split; [reflexivity|]. split.
  { assert (MG : i_method i = "GET").
    { apply grp_inv in B1. cbv zeta in B1. destruct B1 as (q0 & q1 & q2 & q3 & q4 & K1 & K2 & K3 & K4 & K5 & K6 & K7). cbn [String.eqb eqs] in K4. exact K4. }
    rewrite MG in HT. eauto. }
  split; [exact ED|]. split; [exact Q1|]. split; [exact EV|]. exact R1.
Qed.
Lemma service_request_jwt_fails http jwt s u m b h st c : (forall r, http u m b h = Ok r -> jwt_answer r) -> 
  (forall t, exists e, do_jwt jwt (s_name s) c t = Err e) ->
  exists e, service_request http jwt s u m b "json" h st c = (Err e, c).
Proof.
  intros J F. unfold service_request, bind, get_response. destruct (http u m b h) as [r|e] eqn:HT; [|unfold raise; eauto].
  destruct (jwt_method _ (J r eq_refl)) as (J1 & J2 & J3 & J4). rewrite J3, J4. cbn [andb]. change ("json" =?s "") with false. change ("json" =?s "html") with false. cbv iota.
  unfold parse_request_response. rewrite J1, J2. change (mem_str "jwt" ["json"; "jwt"; "urlencoded"]) with true. cbv iota. unfold bind, parse_response.
  change ("jwt" =?s "") with false. cbv iota. change (mem_str "jwt" ["jose"; "jws"; "jwe"]) with false. cbv iota. change ("jwt" =?s "jwt") with true. cbv iota.
  unfold bind, rbind. destruct (F (h_text r)) as [e X]. cbn. rewrite X. eauto.
Qed.
Lemma user_info_jwt_fails W cl st tok c : (forall u m b h x, e_http W u m b h = Ok x -> jwt_answer x) ->
  (forall t, exists e, e_jwt W (userinfo_unpack c) t = Err e) -> exists e, get_user_info W cl st tok c = (Err e, c).
Proof.
  intros J F. unfold get_user_info. unfold bind at 1.
  destruct ((if tok =?s "" then read_db (fun d => multiple_extend_request_args d [] st ["access_token"] token_items false) ;;; ret tt else ret tt) c) as [r0 c1] eqn:E.
  assert (c1 = c) as ->.
  { destruct (tok =?s ""); [|now injection E]. unfold bind, read_db, ret in E. destruct (multiple_extend_request_args _ _ _ _ _ _); now injection E. }
  destruct r0 as [u|e]; [|eauto]. unfold bind at 1. unfold do_request_named. destruct (has_service _ _); [|unfold raise; eauto].
  destruct (do_request (e_authn W) (e_http W) (e_jwt W) (userinfo_svc W cl) "" [("access_token", VStr tok)] "" [("state", VStr st)] c) as [r c1] eqn:D.
  apply do_request_inv in D. pose proof (pure_userinfo_grp W cl [("access_token", VStr tok)] "" [("state", VStr st)] c) as PU.
  destruct D as [(e & B1 & ->)|(i & c2 & B1 & B2)]; rewrite B1 in PU; cbn in PU; subst; [eauto|].
  change (if "" =?s "" then s_resp_type (userinfo_svc W cl) else "") with "json" in B2.
  edestruct (service_request_jwt_fails (e_http W) (e_jwt W) (userinfo_svc W cl)) as [e X]; [| |rewrite X in B2; injection B2 as <- <-; eauto].
  - intros x Hx. eapply J. exact Hx.
  - intros t. apply F.
Qed.
