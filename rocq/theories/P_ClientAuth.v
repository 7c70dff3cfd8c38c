From Verif Require Import Base BaseP Json JsonP Msg M_State S_State P_State M_Ctx P_Ctx M_Codec P_Codec M_ClientAuth S_ClientAuth.

Ltac rinv H := unfold rbind in H; repeat (dmH H; try discriminate H).

Lemma basic_readable u p : read_basic ("Basic " ++ basic_token u p)%string = Some (u, p).
Proof.
  unfold read_basic. cbn [append starts_with Ascii.eqb Bool.eqb andb drop]. unfold basic_token.
  rewrite b64_roundtrip. unfold basic_credentials.
  replace (split1 ":"%char (quote_plus u ++ ":" ++ quote_plus p)%string) with (Some (quote_plus u, quote_plus p)).
  - now rewrite !quote_roundtrip.
  - symmetry. apply split1_Some. split; [reflexivity|]. now apply quote_no.
Qed.

Lemma dget_ddel_same {A} k (d : dict A) : dget k (ddel k d) = None.
Proof. apply dget_ddel_eq. Qed.

Lemma with_or_without_keys cls atr c req r k : with_or_without_client_id cls atr c req = Ok r ->
  k <> "client_id" -> dget k r = dget k req.
Proof.
  unfold with_or_without_client_id. intros H Hk.
  assert (D : dget k (if mem_str "client_id" (c_req cls) then req else ddel "client_id" req) = dget k req).
  { destruct (mem_str "client_id" (c_req cls)); [reflexivity|]. apply dget_ddel_neq. congruence. }
  destruct atr; [|injection H as <-; exact D].
  destruct (dget "grant_type" req); [|discriminate]. destruct (val_eqb v (VStr "authorization_code")).
  - injection H as <-. destruct (dhas "client_id" req); [reflexivity|]. apply dget_dset_neq. congruence.
  - injection H as <-. exact D.
Qed.

Lemma basic_spec cls atr c kwargs ha req ha' r u p :
  client_secret_basic cls atr c kwargs ha req = Ok (ha', r) ->
  get_user c kwargs = VStr u -> get_passwd c req kwargs = VStr p ->
  exists hs, ha' = Some hs /\
    (exists h, dget "Authorization" hs = Some h /\ read_basic h = Some (u, p)) /\
    (forall k, k <> "Authorization" -> dget k hs = dget k (match ha with Some h => h | None => [] end)) /\
    dget "client_secret" r = None /\
    (forall k, k <> "client_secret" -> k <> "client_id" -> dget k r = dget k req).
Proof.
  unfold client_secret_basic. intros H Hu Hp. rewrite Hu, Hp in H. unfold basic_modify in H. cbv zeta in H.
  destruct (with_or_without_client_id cls atr c (ddel "client_secret" req)) as [r0|] eqn:Heqr0; [|discriminate]. cbn [rbind] in H.
  inversion H; subst; clear H. eexists. split; [reflexivity|]. split; [|split; [|split]].
  - eexists. rewrite dget_dset_eq. split; [reflexivity|]. apply basic_readable.
  - intros k Hk. apply dget_dset_neq. congruence.
  - rewrite (with_or_without_keys _ _ _ _ _ _ Heqr0) by discriminate. apply dget_ddel_same.
  - intros k H1 H2. rewrite (with_or_without_keys _ _ _ _ _ _ Heqr0) by assumption. apply dget_ddel_neq. congruence.
Qed.
(** client_id of a code grant token request is filled in *)
Lemma basic_client_id cls c kwargs ha req ha' r :
  client_secret_basic cls true c kwargs ha req = Ok (ha', r) ->
  dget "grant_type" req = Some (VStr "authorization_code") ->
  dget "client_id" r = Some (match dget "client_id" req with Some v => v | None => VStr (client_id c) end).
Proof.
  unfold client_secret_basic. intros H Hg. destruct (get_user c kwargs); try discriminate.
  destruct (get_passwd c req kwargs); try discriminate. unfold basic_modify, with_or_without_client_id in H.
  rewrite dget_ddel_neq in H by discriminate. rewrite Hg in H. cbn in H.
  inversion H; subst; clear H. unfold dhas. rewrite dget_ddel_neq by discriminate.
  destruct (dget "client_id" req) eqn:E.
  - rewrite dget_ddel_neq by discriminate. exact E.
  - apply dget_dset_eq.
Qed.
Lemma basic_header_inj u p u' p' :
  ("Basic " ++ basic_token u p = "Basic " ++ basic_token u' p')%string -> u = u' /\ p = p'.
Proof. intros H. pose proof (basic_readable u p) as A. rewrite H, basic_readable in A. inversion A; auto. Qed.

(** client_secret_post *)
Lemma post_spec c kwargs ha req : 
  match client_secret_post c kwargs ha req with
  | Ok (ha', r) =>
      ha' = ha /\ dget "client_id" r = Some (VStr (client_id c)) /\
      dget "client_secret" r =
        Some (match dget "client_secret" req with Some v => v | None =>
              match dget "client_secret" kwargs with Some v => v | None => VStr (client_secret c) end end) /\
      (forall k, k <> "client_id" -> k <> "client_secret" -> dget k r = dget k req)
  | Err e => e = AuthnFailure /\ dget "client_secret" req = None /\ dget "client_secret" kwargs = None /\
             client_secret c = ""
  end.
Proof.
  unfold client_secret_post, post_modify, rbind, dhas.
  destruct (dget "client_secret" req) eqn:E1.
  - repeat split; [apply dget_dset_eq|now rewrite dget_dset_neq|].
    intros k H1 H2. apply dget_dset_neq. congruence.
  - destruct (dget "client_secret" kwargs) eqn:E2.
    + repeat split; [apply dget_dset_eq|rewrite dget_dset_neq by discriminate; apply dget_dset_eq|].
      intros k H1 H2. rewrite !dget_dset_neq by congruence. reflexivity.
    + destruct (String.eqb_spec (client_secret c) ""); [auto|].
      repeat split; [apply dget_dset_eq|rewrite dget_dset_neq by discriminate; apply dget_dset_eq|].
      intros k H1 H2. rewrite !dget_dset_neq by congruence. reflexivity.
Qed.

(** bearer *)
Lemma find_token_request c kwargs ty req t : dget ty req = Some t -> find_token c kwargs ty req = Ok (t, ddel ty req).
Proof. unfold find_token. now intros ->. Qed.
Lemma find_token_kwargs c kwargs ty req t : dget ty req = None -> dget "access_token" kwargs = Some t ->
  find_token c kwargs ty req = Ok (t, req).
Proof. unfold find_token. now intros -> ->. Qed.
Lemma find_token_session c kwargs ty req key t r : dget ty req = None -> dget "access_token" kwargs = None ->
  dget "key" kwargs = Some (VStr key) -> find_token c kwargs ty req = Ok (t, r) ->
  newest_access_token c key t /\ r = req.
Proof.
  unfold find_token, newest_access_token, rbind. intros -> -> -> H.
  destruct (multiple_extend_request_args (sdb c) [] key ["access_token"] token_items false) as [a|] eqn:E; [|discriminate].
  unfold dict_get in H. destruct (dget "access_token" a) eqn:Ea; [|discriminate]. inversion H; subst; clear H.
  unfold multiple_extend_request_args in E. destruct (get_state (sdb c) key) as [st|] eqn:Es; [|discriminate].
  assert (F : multiple_extend_request_args (sdb c) [] key ["access_token"] token_items false = Ok a).
  { unfold multiple_extend_request_args. now rewrite Es. }
  pose proof (mult_extend_spec _ _ _ _ _ _ _ _ Es F "access_token") as G. rewrite Ea in G.
  replace (mem_str "access_token" ["access_token"]) with true in G by reflexivity.
  split; [|reflexivity]. exists st. split; [reflexivity|]. change ["auth_response"; "token_response"; "refresh_token_response"] with token_items.
  destruct (last_offer false (present st token_items) "access_token"); [|discriminate]. inversion G; auto.
Qed.
Lemma find_token_in_force c kwargs ty req t r : find_token c kwargs ty req = Ok (t, r) ->
  token_in_force c kwargs ty req t /\ dget ty r = None /\ forall k, k <> ty -> dget k r = dget k req.
Proof.
  intros H. destruct (dget ty req) as [x|] eqn:E1.
  { rewrite (find_token_request _ _ _ _ _ E1) in H. injection H as -> <-. split; [now apply tif_request|].
    split; [apply dget_ddel_eq|]. intros k Hk. apply dget_ddel_neq. congruence. }
  destruct (dget "access_token" kwargs) as [x|] eqn:E2.
  { rewrite (find_token_kwargs _ _ _ _ _ E1 E2) in H. injection H as -> <-. split; [now apply tif_caller|]. auto. }
  destruct (dget "key" kwargs) as [v|] eqn:E3; [|unfold find_token in H; rewrite E1, E2, E3 in H; discriminate].
  destruct v as [| | |k| |]; try (unfold find_token in H; rewrite E1, E2, E3 in H; discriminate).
  destruct (find_token_session _ _ _ _ _ _ _ E1 E2 E3 H) as [N ->]. split; [now apply (tif_session _ _ _ _ k)|]. auto.
Qed.
Lemma bearer_header_spec sn c kwargs ha req ha' r :
  bearer_header sn c kwargs ha req = Ok (ha', r) ->
  exists t hs, find_token c kwargs (if sn =?s "refresh_token" then "refresh_token" else "access_token") req = Ok (VStr t, r) /\
    t <> "" /\ ha' = Some hs /\ dget "Authorization" hs = Some ("Bearer " ++ t)%string /\
    (forall k, k <> "Authorization" -> dget k hs = dget k (match ha with Some h => h | None => [] end)).
Proof.
  unfold bearer_header. intros H. unfold rbind in H.
  destruct (find_token c kwargs (if sn =?s "refresh_token" then "refresh_token" else "access_token") req) as [[t r1]|]; [|discriminate].
  destruct (truthy t) eqn:Et; [|discriminate]. destruct t; try discriminate. inversion H; subst; clear H.
  exists s. eexists. repeat split.
  - intros ->. discriminate.
  - apply dget_dset_eq.
  - intros k Hk. apply dget_dset_neq. congruence.
Qed.
Lemma bearer_header_none sn c kwargs ha req e :
  bearer_header sn c kwargs ha req = Err e ->
  match find_token c kwargs (if sn =?s "refresh_token" then "refresh_token" else "access_token") req with
  | Err e' => e = e'
  | Ok (t, _) => if truthy t then e = OtherError else exists m, e = KeyError m
  end.
Proof.
  unfold bearer_header, rbind. intros H.
  destruct (find_token _ _ _ _) as [[t r1]|e']; [|now inversion H].
  destruct (truthy t); [|inversion H; eauto]. destruct t; inversion H; reflexivity.
Qed.
Lemma bearer_auth_reads req t : dget "access_token" req = None ->
  bearer_auth req ("Bearer " ++ t)%string = Ok (VStr t).
Proof. unfold bearer_auth. intros ->. reflexivity. Qed.

(** JWT assertions *)
Lemma get_key_by_kid_sound kid alg own k : get_key_by_kid kid alg own = Ok k ->
  In k own /\ k_id k = kid /\ k_ty k = alg2keytype alg.
Proof.
  induction own as [|x own IH]; simpl; [discriminate|]. destruct (String.eqb_spec (k_id x) kid).
  - destruct (String.eqb_spec (k_ty x) (alg2keytype alg)); [|discriminate]. intros H; injection H as <-. auto.
  - intros H. apply IH in H. intuition.
Qed.
Lemma get_signing_key_sound own kids alg kid ks : get_signing_key own kids alg kid = Ok ks ->
  forall k, In k ks -> In k own /\ k_ty k = alg2keytype alg.
Proof.
  assert (A : forall k, In k (keys_of_type own (alg2keytype alg)) -> In k own /\ k_ty k = alg2keytype alg).
  { intros k Hk. apply filter_In in Hk. destruct Hk as [H1 H2]. apply String.eqb_eq in H2. auto. }
  assert (B : forall i x k, get_key_by_kid i alg own = Ok x -> In k [x] -> In k own /\ k_ty k = alg2keytype alg).
  { intros i x k H [<-|[]]. apply get_key_by_kid_sound in H. tauto. }
  unfold get_signing_key, rbind. intros H k Hk. cbv zeta in H.
  destruct (match kid with Some k => k | None => "" end =?s "").
  - destruct (dget (alg2keytype alg) kids).
    + destruct (get_key_by_kid s alg own) eqn:E; [|discriminate]. injection H as <-. eauto.
    + injection H as <-. auto.
  - destruct (get_key_by_kid _ alg own) eqn:E; [|discriminate]. injection H as <-. eauto.
Qed.
Lemma audience_spec own meth c kwargs aud alg : audience_and_algorithm own meth c kwargs = Ok (aud, alg) ->
  (at_token_endpoint kwargs -> dget "token_endpoint" (provider_info c) = Some aud) /\
  (~ at_token_endpoint kwargs -> dget "issuer" (provider_info c) = Some aud /\ choose_algorithm meth kwargs = Ok alg).
Proof.
  unfold audience_and_algorithm, at_token_endpoint. intros H.
  set (b := match dget "authn_endpoint" kwargs with Some v => val_eqb v (VStr "token_endpoint") | None => false end) in *.
  assert (Hb : b = true <-> dget "authn_endpoint" kwargs = Some (VStr "token_endpoint")).
  { unfold b. destruct (dget "authn_endpoint" kwargs) as [v|]; [|split; discriminate].
    rewrite val_eqb_eq. split; intros X; congruence. }
  destruct b eqn:Eb; cbn [rbind] in H.
  - split; [intros _|intros X; exfalso; apply X; now apply Hb].
    unfold rbind, dict_get in H.
    match type of H with match ?m with _ => _ end = _ => destruct m as [oa|]; [|discriminate] end.
    destruct (dget "token_endpoint" (provider_info c)); [|discriminate].
    f_equal. repeat (dmH H; try discriminate H); now inversion H.
  - split; [intros X; apply Hb in X; congruence|intros _].
    unfold rbind, dict_get in H. destruct (dget "issuer" (provider_info c)); [|discriminate].
    destruct (choose_algorithm meth kwargs) as [x|]; [|discriminate]. inversion H; subst. auto.
Qed.
Lemma jws_spec sgn own kids jti now meth cls c kwargs req ha' r :
  jws_authn sgn own kids jti now meth cls c kwargs req = Ok (ha', r) ->
  dget "client_assertion" kwargs = None -> dget "client_assertion" req = None ->
  ha' = None /\ dget "client_secret" r = None /\
  dget "client_assertion_type" r = Some (VStr jwt_bearer) /\
  (forall k, ~ In k ["client_assertion"; "client_assertion_type"; "client_secret"; "client_id"] -> dget k r = dget k req) /\
  exists ks alg claims aud life,
    dget "client_assertion" r = Some (VStr (sgn ks alg claims)) /\
    ks <> [] /\ (forall k, In k ks -> In k own /\ k_ty k = alg2keytype alg) /\
    audience_and_algorithm own meth c kwargs = Ok (aud, alg) /\
    dget "iss" claims = Some (VStr (client_id c)) /\ dget "sub" claims = Some (VStr (client_id c)) /\
    dget "aud" claims = Some aud /\ dget "iat" claims = Some (VInt now) /\
    dget "exp" claims = Some (VInt (now + life)) /\ dget "jti" claims = Some (VStr jti) /\
    (life = match dget "lifetime" kwargs with Some (VInt l) => l | _ => 600 end)%Z.
Proof.
  unfold jws_authn, jws_modify. intros H Hk Hr. rewrite Hk in H. unfold dhas in H. rewrite Hr in H.
  destruct (construct_client_assertion sgn own kids jti now meth c kwargs) as [a|] eqn:Ea;
    [|discriminate H]. cbn [rbind] in H.
  set (q := dset "client_assertion_type" (VStr jwt_bearer) (dset "client_assertion" (VStr a) req)) in *.
  destruct (mem_str "client_id" (c_par cls)); [|discriminate H].
  cbn [rbind] in H. inversion H; subst; clear H.
  set (r := if mem_str "client_id" (c_req cls) then ddel "client_secret" q else ddel "client_id" (ddel "client_secret" q)).
  assert (G : forall k, k <> "client_id" -> dget k r = dget k (ddel "client_secret" q)).
  { intros k Hn. unfold r. destruct (mem_str "client_id" (c_req cls)); [reflexivity|]. apply dget_ddel_neq. congruence. }
  split; [reflexivity|]. split; [|split; [|split]].
  - rewrite G by discriminate. apply dget_ddel_same.
  - rewrite G, dget_ddel_neq by discriminate. apply dget_dset_eq.
  - intros k Hn. simpl in Hn. rewrite G by (intros ->; apply Hn; auto).
    rewrite dget_ddel_neq by (intros <-; apply Hn; auto).
    unfold q. rewrite !dget_dset_neq; [reflexivity| |]; intros <-; apply Hn; auto.
  - assert (Ga : dget "client_assertion" r = Some (VStr a)).
    { rewrite G, dget_ddel_neq by discriminate. unfold q. rewrite dget_dset_neq by discriminate. apply dget_dset_eq. }
    unfold construct_client_assertion in Ea. cbn [rbind] in Ea.
    destruct (audience_and_algorithm own meth c kwargs) as [[aud alg]|] eqn:Eaa; [|discriminate]. cbn [rbind] in Ea.
    match type of Ea with rbind (get_signing_key _ _ _ ?kid) _ = _ => destruct (get_signing_key own kids alg kid) as [ks|] eqn:Eks; [|discriminate] end.
    cbn [rbind] in Ea. destruct ks as [|k0 ks]; [discriminate|].
    exists (k0 :: ks), alg.
    assert (K : forall k, In k (k0 :: ks) -> In k own /\ k_ty k = alg2keytype alg) by (eapply get_signing_key_sound; eauto).
    destruct (dget "lifetime" kwargs) as [[| |l| | |]|]; try discriminate; injection Ea as Ea;
      do 3 eexists; rewrite Ga, <- Ea; repeat (split; [solve [reflexivity | discriminate | exact K]|]); reflexivity.
Qed.
Lemma jws_no_secret sgn own kids jti now meth cls c kwargs req ha' r :
  jws_authn sgn own kids jti now meth cls c kwargs req = Ok (ha', r) -> dget "client_secret" r = None.
Proof.
  unfold jws_authn, jws_modify. intros H. unfold rbind in H.
  match type of H with match match ?m with _ => _ end with _ => _ end = _ => destruct m as [q|]; [|discriminate] end.
  destruct (mem_str "client_id" (c_par cls)); [|discriminate]. inversion H; subst; clear H.
  destruct (mem_str "client_id" (c_req cls)); [apply dget_ddel_same|].
  rewrite dget_ddel_neq by discriminate. apply dget_ddel_same.
Qed.
Lemma find_token_other c kwargs ty req t r k : find_token c kwargs ty req = Ok (t, r) -> k <> ty -> dget k r = dget k req.
Proof.
  unfold find_token. intros H Hk. destruct (dget ty req); [inversion H; subst; apply dget_ddel_neq; congruence|].
  unfold rbind in H. repeat (dmH H; try discriminate H); inversion H; reflexivity.
Qed.

(** every method but client_secret_post leaves (or makes) the body free of the secret,
    except that the bearer methods do not touch a secret that is already there *)
Lemma authenticate_secret E meth sn cls atr c kwargs ha req ha' r :
  authenticate E meth sn cls atr c kwargs ha req = Ok (ha', r) -> meth <> "client_secret_post" ->
  dget "client_secret" r = None \/
  ((meth = "bearer_header" \/ meth = "bearer_body") /\ dget "client_secret" r = dget "client_secret" req).
Proof.
  unfold authenticate. intros H Hm.
  destruct (String.eqb_spec meth "client_secret_basic").
  { left. unfold client_secret_basic in H.
    destruct (get_user c kwargs) eqn:E1; try discriminate. destruct (get_passwd c req kwargs) eqn:E2; try discriminate.
    fold (client_secret_basic cls atr c kwargs ha req) in H.
    assert (H' : client_secret_basic cls atr c kwargs ha req = Ok (ha', r)).
    { unfold client_secret_basic. rewrite E1, E2. exact H. }
    destruct (basic_spec _ _ _ _ _ _ _ _ _ _ H' E1 E2) as (_ & _ & _ & _ & G & _). exact G. }
  destruct (String.eqb_spec meth "client_secret_post"); [congruence|].
  destruct (String.eqb_spec meth "bearer_header").
  { right. split; [auto|]. apply bearer_header_spec in H. destruct H as (t & hs & F & _).
    apply find_token_other with (k := "client_secret") in F; [exact F|]. destruct (sn =?s "refresh_token"); discriminate. }
  destruct (String.eqb_spec meth "bearer_body").
  { right. split; [auto|]. unfold bearer_body, rbind in H.
    destruct (find_token c kwargs "access_token" req) as [[t r1]|] eqn:E1; [|discriminate].
    apply find_token_other with (k := "client_secret") in E1; [|discriminate].
    destruct (truthy t) eqn:Et.
    - try rewrite Et in H. inversion H; subst. rewrite dget_dset_neq by discriminate. exact E1.
    - destruct (find_token c kwargs "refresh_token" r1) as [[t2 r2]|] eqn:E2; [|discriminate].
      apply find_token_other with (k := "client_secret") in E2; [|discriminate].
      destruct (truthy t2); [|discriminate]. inversion H; subst. rewrite dget_dset_neq by discriminate. congruence. }
  destruct ((meth =?s "client_secret_jwt") || (meth =?s "private_key_jwt")); [|discriminate].
  left. eapply jws_no_secret; eauto.
Qed.

(** ** the methods as selected by name, against S_ClientAuth.v *)
Lemma basic_full E sn cls atr c kwargs ha req ha' r :
  authenticate E "client_secret_basic" sn cls atr c kwargs ha req = Ok (ha', r) ->
  exists u p hs h,
    user_in_force c kwargs = Some (VStr u) /\ password_in_force c req kwargs = Some (VStr p) /\
    ha' = Some hs /\ dget "Authorization" hs = Some h /\ read_basic h = Some (u, p) /\
    (forall k, k <> "Authorization" -> dget k hs = dget k (match ha with Some h => h | None => [] end)) /\
    dget "client_secret" r = None /\
    (forall k, k <> "client_secret" -> k <> "client_id" -> dget k r = dget k req).
Proof.
  unfold authenticate. rewrite String.eqb_refl. intros H. pose proof H as H0. unfold client_secret_basic in H.
  destruct (get_user c kwargs) as [| | |u| |] eqn:U; try discriminate.
  destruct (get_passwd c req kwargs) as [| | |p| |] eqn:P; try discriminate. clear H.
  destruct (basic_spec _ _ _ _ _ _ _ _ _ _ H0 U P) as (hs & -> & (h & G1 & G2) & G3 & G4 & G5).
  exists u, p, hs, h. split; [|split].
  - unfold user_in_force, get_user in *. destruct (dget "user" kwargs); cbn [first_given]; congruence.
  - unfold password_in_force, get_passwd in *.
    destruct (dget "password" kwargs); [cbn [first_given]; congruence|].
    destruct (dget "client_secret" req); cbn [first_given]; congruence.
  - auto 10.
Qed.
Lemma bearer_full E sn cls atr c kwargs ha req ha' r :
  authenticate E "bearer_header" sn cls atr c kwargs ha req = Ok (ha', r) ->
  let ty := if sn =?s "refresh_token" then "refresh_token" else "access_token" in
  exists t hs, token_in_force c kwargs ty req (VStr t) /\ t <> "" /\
    ha' = Some hs /\ dget "Authorization" hs = Some ("Bearer " ++ t)%string /\
    (forall k, k <> "Authorization" -> dget k hs = dget k (match ha with Some h => h | None => [] end)) /\
    dget ty r = None /\ (forall k, k <> ty -> dget k r = dget k req).
Proof.
  intros H. change (bearer_header sn c kwargs ha req = Ok (ha', r)) in H. intros ty.
  destruct (bearer_header_spec _ _ _ _ _ _ _ H) as (t & hs & F & G1 & G2 & G3 & G4).
  apply find_token_in_force in F. destruct F as (F1 & F2 & F3). exists t, hs. auto 10.
Qed.
Lemma bearer_body_full E sn cls atr c kwargs ha req ha' r :
  authenticate E "bearer_body" sn cls atr c kwargs ha req = Ok (ha', r) ->
  exists t, truthy t = true /\ ha' = ha /\ dget "access_token" r = Some t /\
    (token_in_force c kwargs "access_token" req t /\ (forall k, k <> "access_token" -> dget k r = dget k req) \/
     exists t0, token_in_force c kwargs "access_token" req t0 /\ truthy t0 = false /\
       token_in_force c kwargs "refresh_token" (ddel "access_token" req) t /\
       (forall k, k <> "access_token" -> k <> "refresh_token" -> dget k r = dget k req)).
Proof.
  intros H. change (bearer_body c kwargs ha req = Ok (ha', r)) in H. unfold bearer_body, rbind in H.
  destruct (find_token c kwargs "access_token" req) as [[t r1]|] eqn:E1; [|discriminate].
  destruct (find_token_in_force _ _ _ _ _ _ E1) as (F1 & F2 & F3).
  destruct (truthy t) eqn:Et.
  - try rewrite Et in H. injection H as <- <-. exists t. split; [exact Et|]. split; [reflexivity|]. split; [apply dget_dset_eq|].
    left. split; [exact F1|]. intros k Hk. rewrite dget_dset_neq by congruence. auto.
  - destruct (find_token c kwargs "refresh_token" r1) as [[t2 r2]|] eqn:E2; [|discriminate].
    destruct (find_token_in_force _ _ _ _ _ _ E2) as (J1 & J2 & J3).
    destruct (truthy t2) eqn:Et2; [|discriminate]. injection H as <- <-. exists t2. split; [exact Et2|]. split; [reflexivity|].
    split; [apply dget_dset_eq|]. right. exists t. split; [exact F1|]. split; [exact Et|]. split.
    + assert (X : r1 = ddel "access_token" req \/ r1 = req /\ dget "access_token" req = None).
      { clear - E1. unfold find_token in E1. destruct (dget "access_token" req) eqn:Ea; [left; now injection E1|right].
        split; [|reflexivity]. unfold rbind in E1. repeat (dmH E1; try discriminate E1); now injection E1. }
      destruct X as [->|[-> X]]; [exact J1|].
      assert (D : dget "refresh_token" (ddel "access_token" req) = dget "refresh_token" req) by (apply dget_ddel_neq; discriminate).
      inversion J1; [apply tif_request|apply tif_caller|eapply tif_session]; eauto; congruence.
    + intros k H1 H2. rewrite dget_dset_neq by congruence. rewrite J3, F3; auto.
Qed.
Lemma no_token E sn cls atr c kwargs ha req : 
  let ty := if sn =?s "refresh_token" then "refresh_token" else "access_token" in
  (forall t, token_in_force c kwargs ty req (VStr t) -> t = "") ->
  exists e, authenticate E "bearer_header" sn cls atr c kwargs ha req = Err e.
Proof.
  intros ty H. destruct (authenticate E "bearer_header" sn cls atr c kwargs ha req) as [[ha' r]|e] eqn:A; [|eauto].
  destruct (bearer_full _ _ _ _ _ _ _ _ _ _ A) as (t & hs & F & N & _). elim N. auto.
Qed.

Lemma alg2keytype_table alg ty : In (alg, ty) key_types -> alg2keytype alg = ty.
Proof. cbn. intros H. repeat (destruct H as [H|H]; [injection H as <- <-; reflexivity|]). destruct H. Qed.
Lemma signer_table a : mem_str a signer_algs = true <-> exists ty, In (a, ty) key_types.
Proof.
  split.
  - intros H. apply mem_str_In in H. cbn in H.
    repeat (destruct H as [<-|H]; [eexists; cbn; tauto|]). destruct H.
  - intros [ty H]. cbn in H. repeat (destruct H as [H|H]; [injection H as <- <-; reflexivity|]). destruct H.
Qed.
Definition usable_alg (own : list key) (a : string) : bool :=
  mem_str a signer_algs && match keys_of_type own (alg2keytype a) with [] => false | _ => true end.
Lemma usable_spec own a : usable_alg own a = true <-> can_sign own a.
Proof.
  unfold usable_alg, can_sign. rewrite andb_true_iff, signer_table. split.
  - intros [[ty H] K]. destruct (keys_of_type own (alg2keytype a)) as [|k ks] eqn:E; [discriminate|].
    exists ty, k. assert (I : In k (keys_of_type own (alg2keytype a))) by (rewrite E; left; reflexivity).
    apply filter_In in I. destruct I as [I J]. apply String.eqb_eq in J. split; [exact H|]. split; [exact I|]. now rewrite <- (alg2keytype_table _ _ H).
  - intros (ty & k & H & I & J). split; [eauto|].
    assert (X : In k (keys_of_type own (alg2keytype a))).
    { apply filter_In. split; [exact I|]. apply String.eqb_eq. rewrite (alg2keytype_table _ _ H). exact J. }
    destruct (keys_of_type own (alg2keytype a)); [destruct X|reflexivity].
Qed.
Lemma first_alg_spec own l :
  match first_alg own l with
  | Some a => exists l1 l2, l = (l1 ++ VStr a :: l2)%list /\ can_sign own a /\ forall b, In (VStr b) l1 -> ~ can_sign own b
  | None => forall b, In (VStr b) l -> ~ can_sign own b
  end.
Proof.
  unfold first_alg. induction l as [|v l IH]; [intros b []|].
  cbn [find].
  assert (S1 : forall b, VStr b = v -> usable_alg own b = false -> ~ can_sign own b).
  { intros b _ H C. apply usable_spec in C. congruence. }
  assert (REC : (match v with VStr a => usable_alg own a | _ => false end) = false ->
    match match find (fun v => match v with VStr a => mem_str a signer_algs && match keys_of_type own (alg2keytype a) with [] => false | _ => true end
                       | _ => false end) l with Some (VStr a) => Some a | _ => None end with
    | Some a => exists l1 l2, (v :: l = l1 ++ VStr a :: l2)%list /\ can_sign own a /\ forall b, In (VStr b) l1 -> ~ can_sign own b
    | None => forall b, In (VStr b) (v :: l) -> ~ can_sign own b
    end).
  { intros Hv.
    assert (Hb : forall b, v = VStr b -> ~ can_sign own b) by (intros b ->; now apply S1).
    destruct (match find _ l with Some (VStr a) => Some a | _ => None end) as [a|].
    - destruct IH as (l1 & l2 & -> & C & N). exists (v :: l1), l2. split; [reflexivity|]. split; [exact C|].
      intros b [X|X]; auto.
    - intros b [X|X]; auto. }
  destruct v as [| | |a| |]; try (apply REC; reflexivity).
  fold (usable_alg own a). destruct (usable_alg own a) eqn:U; [|apply REC; reflexivity].
  exists [], l. split; [reflexivity|]. split; [now apply usable_spec|]. intros b [].
Qed.
Lemma choose_spec meth kwargs a : choose_algorithm meth kwargs = Ok a -> caller_alg meth kwargs a.
Proof.
  unfold choose_algorithm, caller_alg, def_sign_alg. destruct (dget "algorithm" kwargs) as [v|]; [|intros H; now injection H].
  intros H. assert (X : truthy v = true /\ v = VStr a).
  { destruct v as [|b|z|s|l|d]; try (match type of H with (if ?x then _ else _) = _ => destruct x; discriminate end).
    destruct (s =?s "") eqn:E; [discriminate|]. injection H as ->. split; [|reflexivity]. destruct a; [discriminate|reflexivity]. }
  destruct X as [X ->]. split; [reflexivity|]. intros ->. discriminate.
Qed.
Lemma algorithm_spec own meth c kwargs aud alg : audience_and_algorithm own meth c kwargs = Ok (aud, alg) ->
  audience c kwargs aud /\ signing_alg own meth c kwargs alg.
Proof.
  intros H. destruct (audience_spec _ _ _ _ _ _ H) as [A1 A2].
  split; [split; [exact A1|]; intros X; now apply A2|].
  destruct (match dget "authn_endpoint" kwargs with Some v => val_eqb v (VStr "token_endpoint") | None => false end) eqn:Eb.
  - assert (T : at_token_endpoint kwargs).
    { unfold at_token_endpoint. destruct (dget "authn_endpoint" kwargs) as [v|]; [|discriminate]. apply val_eqb_eq in Eb. congruence. }
    unfold audience_and_algorithm in H. rewrite Eb in H. cbv zeta in H.
    match type of H with rbind ?m _ = _ => destruct m as [oa|] eqn:EA; [|discriminate] end.
    assert (EO : endpoint_alg own c oa).
    { destruct (registration_response c) as [|rr0 rr] eqn:ER.
      - assert (NP : forall P : Prop, (In (dget "token_endpoint_auth_signing_alg" (client_preferences c)) [None; Some VNone] ->
          match dget "token_endpoint_auth_signing_alg_values_supported" (provider_info c) with
          | None => Ok (Some (VStr "RS256"))
          | Some (VList algs) => Ok (match first_alg own algs with Some a => Some (VStr a) | None => None end)
          | Some _ => Err OtherError
          end = Ok oa -> P) -> ((exists a, dget "token_endpoint_auth_signing_alg" (client_preferences c) = Some a /\ a <> VNone /\ oa = Some a) -> P) -> P).
        { intros P P1 P2. destruct (dget "token_endpoint_auth_signing_alg" (client_preferences c)) as [a|].
          - destruct a; try (apply P2; eexists; split; [reflexivity|]; split; [discriminate|]; congruence).
            apply P1; [cbn; tauto|exact EA].
          - apply P1; [cbn; tauto|exact EA]. }
        apply NP.
        + intros I Q. destruct (dget "token_endpoint_auth_signing_alg_values_supported" (provider_info c)) as [s|] eqn:ES.
          * destruct s as [| | | |algs|]; try discriminate. injection Q as <-.
            pose proof (first_alg_spec own algs) as FS. destruct (first_alg own algs) as [a|].
            -- destruct FS as (l1 & l2 & -> & C & N). eapply ea_published; eauto.
            -- eapply ea_nothing; eauto.
          * injection Q as <-. now apply ea_unpublished.
        + intros (a & I & N & ->). now apply ea_preferred.
      - unfold rbind, dict_get in EA. destruct (dget "token_endpoint_auth_signing_alg" (rr0 :: rr)) as [a|] eqn:EG; [|discriminate].
        injection EA as <-. apply ea_registered; rewrite ER; [discriminate|exact EG]. }
    cbn [rbind] in H. unfold dict_get in H.
    destruct (dget "token_endpoint" (provider_info c)) as [aud'|]; [|discriminate]. cbn [rbind] in H.
    assert (CH : forall x, choose_algorithm meth kwargs = Ok x -> match oa with Some v => truthy v = false | None => True end ->
       signing_alg own meth c kwargs x).
    { intros x X1 X2. eapply sa_undecided; eauto using choose_spec. }
    destruct oa as [v|].
    + destruct v as [| | |a| |].
      4: { destruct (a =?s "") eqn:Ea.
           - destruct (choose_algorithm meth kwargs) as [x|]; [|discriminate]. injection H as _ <-. apply CH; [reflexivity|].
             apply String.eqb_eq in Ea. now subst.
           - injection H as _ <-. apply sa_endpoint; auto. intros ->. discriminate. }
      all: match type of H with (if ?b then _ else _) = _ => destruct b eqn:Et; [discriminate|] end;
           destruct (choose_algorithm meth kwargs) as [x|]; [|discriminate]; injection H as _ <-; apply CH; auto.
    + destruct (choose_algorithm meth kwargs) as [x|]; [|discriminate]. injection H as _ <-. apply CH; auto.
  - assert (T : ~ at_token_endpoint kwargs).
    { unfold at_token_endpoint. intros X. rewrite X in Eb. now rewrite (proj2 (val_eqb_eq _ _) eq_refl) in Eb. }
    apply sa_elsewhere; [exact T|]. apply choose_spec. now apply A2.
Qed.
Lemma jws_full E meth sn cls atr c kwargs ha req ha' r : In meth ["client_secret_jwt"; "private_key_jwt"] ->
  authenticate E meth sn cls atr c kwargs ha req = Ok (ha', r) ->
  dget "client_assertion" kwargs = None -> dget "client_assertion" req = None ->
  ha' = None /\ dget "client_secret" r = None /\
  dget "client_assertion_type" r = Some (VStr "urn:ietf:params:oauth:client-assertion-type:jwt-bearer") /\
  (forall k, ~ In k ["client_assertion"; "client_assertion_type"; "client_secret"; "client_id"] -> dget k r = dget k req) /\
  exists a, dget "client_assertion" r = Some (VStr a) /\ client_assertion E meth c kwargs a.
Proof.
  intros I H K Q.
  assert (H' : jws_authn (ae_sgn E) (ae_own E) (ae_sig_kids E) (ae_jti E) (ae_now E) meth cls c kwargs req = Ok (ha', r)).
  { destruct I as [<-|[<-|[]]]; exact H. }
  destruct (jws_spec _ _ _ _ _ _ _ _ _ _ _ _ H' K Q) as (G1 & G2 & G3 & G4 & ks & alg & cm & aud & life & A1 & A2 & A3 & A4 & A5 & A6 & A7 & A8 & A9 & A10 & A11).
  repeat (split; [assumption|]). eexists. split; [exact A1|].
  destruct (algorithm_spec _ _ _ _ _ _ A4) as [B1 B2].
  exists ks, alg, cm, aud, life. split; [reflexivity|]. split; [exact A2|]. split; [intros k X; now apply A3|].
  split; [intros k ty X Y; rewrite <- (alg2keytype_table _ _ Y); now apply A3|]. repeat (split; [assumption|]). exact A10.
Qed.
