(** Proofs about the authorization response path and redirect URI selection. *)
From Verif Require Import Base BaseP Json JsonP Msg M_State S_State P_State M_Ctx P_Ctx M_Authz.

(** parsing never writes *)
Lemma oauth2_post_parse_pure resp st c r c' : oauth2_authz_post_parse resp st c = (r, c') -> c' = c.
Proof. unfold oauth2_authz_post_parse. intros H. minv H; now inversion H. Qed.
Lemma oidc_post_parse_pure resp st c r c' : oidc_authz_post_parse resp st c = (r, c') -> c' = c.
Proof.
  unfold oidc_authz_post_parse, bind. intros H.
  destruct (oauth2_authz_post_parse resp st c) as [[resp'|] c1] eqn:E; apply oauth2_post_parse_pure in E; subst;
    [|now inversion H].
  minv H; now inversion H.
Qed.
Lemma parse_deserialised_pure vrf post resp st c r c' :
  (forall a b c r c', post a b c = (r, c') -> c' = c) ->
  parse_deserialised vrf post resp st c = (r, c') -> c' = c.
Proof.
  intros P H. unfold parse_deserialised, bind, ret, raise in H.
  destruct (is_error_message resp).
  - destruct resp; inversion H; reflexivity.
  - destruct (vrf c resp) as [resp'|]; [|now inversion H].
    destruct (post resp' st c) as [[m|] c1] eqn:E; apply P in E; subst; [|now inversion H].
    destruct m; now inversion H.
Qed.
(** a parsed response that is not an error went through verification and post parsing *)
Lemma parse_deserialised_ok vrf post resp st c r :
  fst (parse_deserialised vrf post resp st c) = Ok r ->
  (is_error_message resp = true /\ r = resp) \/
  (is_error_message resp = false /\ exists v, vrf c resp = Ok v /\ fst (post v st c) = Ok r).
Proof.
  unfold parse_deserialised, bind, ret, raise. destruct (is_error_message resp).
  - destruct resp; intros H; inversion H; auto.
  - destruct (vrf c resp) as [v|]; [|discriminate]. intros H. right. split; [reflexivity|]. exists v. split; [reflexivity|].
    destruct (post v st c) as [[m|] c1]; [|discriminate]. destruct m; [discriminate|]. exact H.
Qed.

Lemma add_expires_keys now resp r k : add_expires_at now resp = Ok r -> k <> "__expires_at" -> dget k r = dget k resp.
Proof.
  unfold add_expires_at. intros H Hk. destruct (dget "expires_in" resp); [|now injection H as <-].
  destruct (to_int v); [|discriminate]. injection H as <-. apply dget_dset_neq. congruence.
Qed.

Lemma authz_update_effect now resp key c r c' : authz_update_service_context now resp key c = (r, c') ->
  match r with
  | Err _ => c' = c
  | Ok m => add_expires_at now resp = Ok m /\ exists d',
       store_item (IMsg cAuthzResponse m) "auth_response" key (sdb c) = (Ok tt, d') /\ c' = set_db d' c
  end.
Proof.
  unfold authz_update_service_context. intros H. destruct (add_expires_at now resp) as [m|]; [|now inversion H].
  unfold bind, on_db, ret in H.
  destruct (store_item (IMsg cAuthzResponse m) "auth_response" key (sdb c)) as [[[]|e] d'] eqn:E.
  - inversion H; subst. eauto.
  - inversion H; subst. apply store_item_effect in E. subst. apply set_db_same.
Qed.

(** C07 *)
Lemma finalize_auth_spec vrf now iss response c r c' :
  finalize_auth vrf now iss response c = (r, c') ->
  match r with
  | Err _ => c' = c
  | Ok m =>
      (is_error_message m = true /\ c' = c) \/
      (is_error_message m = false /\ exists s,
         dget "state" m = Some (VStr s) /\
         get_iss (sdb c) s = Ok (VStr iss) /\
         c' = set_db (sdb c') c /\
         (forall cc, get_item (sdb c') cc "auth_response" s = msg_new cc (msg_to_dict cAuthzResponse m)) /\
         (forall cc t, t <> "auth_response" -> get_item (sdb c') cc t s = get_item (sdb c) cc t s) /\
         get_iss (sdb c') s = Ok (VStr iss) /\
         (forall k, k <> s -> dget k (sdb c') = dget k (sdb c)))
  end.
Proof.
  unfold finalize_auth. destruct (msg_new cAuthzResponse response) as [resp0|]; [|intros H; now inversion H].
  unfold bind at 1.
  destruct (parse_deserialised vrf oidc_authz_post_parse resp0 "" c) as [[resp|e] c1] eqn:E.
  2:{ apply parse_deserialised_pure in E; [subst|exact oidc_post_parse_pure]. intros H; now inversion H. }
  apply parse_deserialised_pure in E; [subst c1|exact oidc_post_parse_pure].
  destruct (is_error_message resp) eqn:Ee.
  { intros H; inversion H; subst. auto. }
  destruct (dget "state" resp) as [vs|] eqn:Es; [|intros H; now inversion H].
  destruct vs as [| | |s| |]; try (intros H; now inversion H).
  destruct (get_iss (sdb c) s) as [i|ei] eqn:Ei.
  2:{ destruct ei; intros H; now inversion H. }
  destruct (val_eqb i (VStr iss)) eqn:Ev; [|intros H; now inversion H].
  apply val_eqb_eq in Ev. subst i. unfold bind at 1.
  destruct (authz_update_service_context now resp s c) as [[m|e] c1] eqn:E1; apply authz_update_effect in E1.
  2:{ intros H; inversion H; subst. reflexivity. }
  destruct E1 as (Hm & d1 & Hs1 & ->). unfold bind, on_db, ret. cbn [sdb set_db].
  pose proof (store_item_effect _ _ _ _ _ _ _ Hs1) as (A1 & A2 & A3 & A4).
  assert (S1 : exists st, get_state d1 s = Ok st).
  { assert (Hne : "auth_response" <> "iss") by discriminate. pose proof (A3 Hne _ Ei) as X. now apply get_iss_state in X. }
  destruct S1 as [st1 S1]. destruct (store_item_succeeds d1 s st1 cAuthzResponse m "auth_response" S1) as [d2 Hs2].
  change (sdb (set_db d1 c)) with d1. rewrite Hs2. intros H. inversion H; subst; clear H. right.
  pose proof (store_item_effect _ _ _ _ _ _ _ Hs2) as (B1 & B2 & B3 & B4).
  assert (Hne : "auth_response" <> "iss") by discriminate.
  split. { unfold is_error_message, dhas in *. now rewrite (add_expires_keys _ _ _ "error" Hm) by discriminate. }
  exists s. cbn [sdb set_db].
  repeat split; auto.
  - now rewrite (add_expires_keys _ _ _ "state" Hm) by discriminate.
  - intros cc t Ht. rewrite B2; [|assumption|eauto]. apply A2; [assumption|]. now apply get_iss_state in Ei.
  - intros k Hk. rewrite B4, A4; auto.
Qed.

(** the exceptions for unknown states and wrong issuers *)
Lemma finalize_auth_unknown vrf now iss response c r :
  finalize_auth vrf now iss response c = (r, c) ->
  forall resp0 resp, msg_new cAuthzResponse response = Ok resp0 ->
  parse_deserialised vrf oidc_authz_post_parse resp0 "" c = (Ok resp, c) ->
  is_error_message resp = false ->
  (forall s, dget "state" resp = Some (VStr s) ->
     (forall e, get_iss (sdb c) s = Err (KeyError e) -> r = Err (KeyError "Unknown state value")) /\
     (forall i, get_iss (sdb c) s = Ok i -> i <> VStr iss -> r = Err ValueError)) /\
  (dget "state" resp = None -> r = Err (KeyError "Unknown state value")).
Proof.
  unfold finalize_auth. intros H resp0 resp H0 H1 H2. rewrite H0 in H. unfold bind at 1 in H. rewrite H1, H2 in H.
  split.
  - intros s Hs. rewrite Hs in H. split.
    + intros e He. rewrite He in H. now inversion H.
    + intros i Hi Hn. rewrite Hi in H. destruct (val_eqb i (VStr iss)) eqn:E; [apply val_eqb_eq in E; congruence|now inversion H].
  - intros Hs. rewrite Hs in H. now inversion H.
Qed.

(** C11, front channel: an accepted response with an ID Token has the session's nonce *)
Lemma oauth2_post_parse_keys resp st c m k : fst (oauth2_authz_post_parse resp st c) = Ok m ->
  k <> "scope" -> dget k m = dget k resp.
Proof.
  unfold oauth2_authz_post_parse. intros H Hk.
  destruct (dhas "scope" resp); [now inversion H|]. destruct (st =?s ""); [now inversion H|].
  destruct (get_item (sdb c) cOAuth2AuthzRequest "auth_request" st); [|discriminate].
  cbn in H. destruct (dget "scope" a); injection H as <-; [|reflexivity]. apply dget_dset_neq. congruence.
Qed.
Lemma oidc_post_parse_nonce resp st c m idt :
  fst (oidc_authz_post_parse resp st c) = Ok m ->
  dget (verified "id_token") m = Some idt -> truthy idt = true ->
  exists s req, dget "state" m = Some (VStr s) /\
    get_item (sdb c) cOAuth2AuthzRequest "auth_request" s = Ok req /\
    (forall n, dget "nonce" req = Some n -> truthy n = true ->
       exists claims, idt = VDict claims /\ dget "nonce" claims = Some n).
Proof.
  unfold oidc_authz_post_parse, bind. intros H Hi Ht.
  destruct (oauth2_authz_post_parse resp st c) as [[m1|] c1] eqn:E; [|discriminate].
  assert (m1 = m).
  { repeat (dmH H; try discriminate H); cbn in H; inversion H; reflexivity. }
  subst m1. rewrite Hi, Ht in H.
  destruct (dget "state" m) as [[| | |s| |]|] eqn:Es; try discriminate H.
  apply oauth2_post_parse_pure in E. subst c1. exists s.
  destruct (get_item (sdb c) cOAuth2AuthzRequest "auth_request" s) as [req|] eqn:Eq; [|discriminate].
  exists req. repeat split; auto. intros n Hn Htn. rewrite Hn, Htn in H.
  destruct idt as [| | | | |claims]; try discriminate H. exists claims. split; [reflexivity|].
  destruct (dget "nonce" claims) as [mm|]; [|discriminate]. destruct (truthy mm); [|discriminate].
  destruct (val_eqb n mm) eqn:Ev; [|discriminate]. apply val_eqb_eq in Ev. now subst.
Qed.
Lemma finalize_auth_nonce vrf now iss response c m c' idt :
  finalize_auth vrf now iss response c = (Ok m, c') -> is_error_message m = false ->
  dget (verified "id_token") m = Some idt -> truthy idt = true ->
  exists s req, dget "state" m = Some (VStr s) /\
    get_item (sdb c) cOAuth2AuthzRequest "auth_request" s = Ok req /\
    (forall n, dget "nonce" req = Some n -> truthy n = true ->
       exists claims, idt = VDict claims /\ dget "nonce" claims = Some n).
Proof.
  unfold finalize_auth. destruct (msg_new cAuthzResponse response) as [resp0|]; [|discriminate].
  unfold bind at 1.
  destruct (parse_deserialised vrf oidc_authz_post_parse resp0 "" c) as [[resp|e] c1] eqn:E; [|discriminate].
  pose proof E as E'. apply parse_deserialised_pure in E'; [subst c1|exact oidc_post_parse_pure].
  assert (F : fst (parse_deserialised vrf oidc_authz_post_parse resp0 "" c) = Ok resp) by now rewrite E.
  apply parse_deserialised_ok in F.
  destruct (is_error_message resp) eqn:Ee; [intros H Hf; inversion H; subst; congruence|].
  destruct F as [[F1 ->]|(F1 & v & Fv & Fp)]; [congruence|].
  destruct (dget "state" resp) as [[| | |s| |]|] eqn:Es; try discriminate.
  destruct (get_iss (sdb c) s) as [i|ei]; [|destruct ei; discriminate].
  destruct (val_eqb i (VStr iss)); [|discriminate]. unfold bind at 1.
  destruct (authz_update_service_context now resp s c) as [[m1|e] c1] eqn:E1; [|discriminate].
  apply authz_update_effect in E1. destruct E1 as (Hm & _).
  intros H Hf Hi Ht.
  assert (m1 = m). { unfold bind, on_db, ret in H. repeat (dmH H; try discriminate H). now inversion H. }
  subst m1.
  assert (Hi' : dget (verified "id_token") resp = Some idt).
  { rewrite <- (add_expires_keys _ _ _ (verified "id_token") Hm) by discriminate. exact Hi. }
  destruct (oidc_post_parse_nonce _ _ _ _ _ Fp Hi' Ht) as (s' & req & G1 & G2 & G3).
  exists s', req. repeat split; auto. rewrite (add_expires_keys _ _ _ "state" Hm) by discriminate. exact G1.
Qed.

(** C39 *)
Lemma pick_caller c args rt u : dget "redirect_uri" args = Some u -> pick_redirect_uri c (Some args) rt = Ok u.
Proof. unfold pick_redirect_uri. now intros ->. Qed.
Lemma pick_registered c args rt u us : dget "redirect_uri" args = None -> redirect_uris c = u :: us ->
  pick_redirect_uri c (Some args) rt = Ok (VStr u).
Proof. unfold pick_redirect_uri. intros -> ->. reflexivity. Qed.
Lemma pick_none c args rt : dget "redirect_uri" args = None -> redirect_uris c = [] -> callback c = [] ->
  pick_redirect_uri c (Some args) rt = Err MissingRequiredAttribute.
Proof. unfold pick_redirect_uri. intros -> -> ->. reflexivity. Qed.
Lemma pick_sound c args rt u : pick_redirect_uri c args rt = Ok u ->
  (exists a, args = Some a /\ dget "redirect_uri" a = Some u) \/
  (exists s us, redirect_uris c = s :: us /\ u = VStr s) \/
  (redirect_uris c = [] /\ exists k, In k ["form_post"; "code"; "implicit"] /\ dget k (callback c) = Some u).
Proof.
  unfold pick_redirect_uri. intros H.
  destruct (dget "redirect_uri" match args with Some a => a | None => [] end) eqn:E.
  { destruct args; [|discriminate]. injection H as <-. left. eauto. }
  destruct (redirect_uris c) as [|s us] eqn:Er; [|injection H as <-; right; left; eauto].
  right. right. split; [reflexivity|].
  destruct (callback c) as [|p cb] eqn:Ec; [discriminate|]. rewrite <- Ec in *.
  cbv zeta in H.
  assert (G : forall k, dict_get k (callback c) = Ok u -> dget k (callback c) = Some u).
  { intros k. unfold dict_get. destruct (dget k (callback c)); congruence. }
  match type of H with (if ?a then _ else _) = _ => destruct a end; [exists "form_post"; split; [simpl; auto|auto]|].
  match type of H with (if ?a then _ else _) = _ => destruct a end;
    [exists "code"|exists "implicit"]; split; simpl; auto.
Qed.
(** which callback: form_post for response mode form_post, else code for the plain
    code response type, else implicit *)
Definition wants_form_post (args : dict val) (rt : val) : bool :=
  match dget "response_mode" args with Some m => val_eqb m (VStr "form_post") | None => false end
  || val_eqb rt (VList [VStr "form_post"]).
Definition wants_code (rt : val) : bool := val_eqb rt (VStr "code") || val_eqb rt (VList [VStr "code"]).
Lemma pick_callback c args rt : dget "redirect_uri" args = None -> redirect_uris c = [] -> callback c <> [] ->
  truthy rt = true ->
  pick_redirect_uri c (Some args) (Some rt) =
    dict_get (if wants_form_post args rt then "form_post" else if wants_code rt then "code" else "implicit") (callback c).
Proof.
  intros H1 H2 H3 Ht. unfold pick_redirect_uri. rewrite H1, H2.
  destruct (callback c) as [|p cb] eqn:Ec; [congruence|]. cbv zeta.
  cbn [otruthy]. rewrite Ht. unfold wants_form_post, wants_code.
  destruct (_ || val_eqb rt (VList [VStr "form_post"]))%bool; [reflexivity|].
  destruct (val_eqb rt (VStr "code") || val_eqb rt (VList [VStr "code"])); reflexivity.
Qed.
