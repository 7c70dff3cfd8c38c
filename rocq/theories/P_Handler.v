(** Lemmas about M_Handler.v *)
From Verif Require Import Base BaseP Json JsonP Msg M_State S_State P_State M_Ctx M_Codec M_Authz M_ClientAuth
  M_Service M_Token M_Handler S_Service S_Token S_Handler P_Ctx P_Authz P_Codec P_ClientAuth P_Service P_Wire P_Token.

(** ** C15 *)
Definition offer_of (r : res msg) (o : option (val * option val)) : Prop :=
  match r with
  | Ok m => match dget "access_token" m with
            | Some a => o = Some (a, dget "__expires_at" m)
            | None => o = None
            end
  | Err _ => o = None
  end.
Definition Inv (now : Z) (O : list (val * option val)) (acc : list val * option (val * Z) * Z) : Prop :=
  let '(ind, tok, ex) := acc in
  ind = map fst (filter (fun o => match snd o with None => true | Some _ => false end) O) /\
  match tok with
  | None => ex = 0%Z
  | Some (a, x) => x = ex /\ (now < x)%Z /\ In (a, Some (VInt x)) O
  end /\ (0 <= ex)%Z /\
  (forall a e, In (a, Some e) O -> exists y, e = VInt y /\ (y <= now \/ y <= ex)%Z).
Lemma scan_inv now r acc acc' O o : Inv now O acc -> offer_of r o -> scan_token now r acc = Ok acc' ->
  Inv now (O ++ match o with Some x => [x] | None => [] end) acc'.
Proof.
  destruct acc as [[ind tok] ex]. intros (I1 & I2 & I3 & I4) Ho H. unfold scan_token in H.
  assert (SAME : Ok (ind, tok, ex) = Ok acc' -> o = None -> Inv now (O ++ match o with Some x => [x] | None => [] end) acc').
  { intros [= <-] ->. rewrite app_nil_r. unfold Inv. auto. }
  destruct r as [m|e]; cbn [offer_of] in Ho; [|destruct e; try discriminate; auto].
  destruct (dget "access_token" m) as [a|]; [|auto]. subst o.
  destruct (dget "__expires_at" m) as [[| |x| | |]|] eqn:Ex; try discriminate.
  - destruct ((now <? x) && (ex <? x))%Z eqn:C; injection H as <-; unfold Inv; rewrite filter_app, map_app; cbn [filter snd map]; rewrite app_nil_r.
    + apply andb_true_iff in C. destruct C as [C1 C2]. apply Z.ltb_lt in C1, C2.
      split; [assumption|]. split; [split; [reflexivity|split; [assumption|apply in_or_app; right; simpl; auto]]|]. split; [lia|].
      intros b e Hin. apply in_app_or in Hin. destruct Hin as [Hin|[Hin|[]]].
      * destruct (I4 _ _ Hin) as (y & -> & Hy). exists y. split; [reflexivity|lia].
      * injection Hin as <- <-. exists x. split; [reflexivity|lia].
    + split; [assumption|]. split; [destruct tok as [[b y]|]; [|assumption]; destruct I2 as (? & ? & ?); repeat split; auto; apply in_or_app; auto|].
      split; [assumption|].
      intros b e Hin. apply in_app_or in Hin. destruct Hin as [Hin|[Hin|[]]]; [now apply (I4 b)|].
      injection Hin as <- <-. exists x. split; [reflexivity|]. rewrite andb_false_iff, !Z.ltb_ge in C. assumption.
  - injection H as <-. unfold Inv. rewrite filter_app, map_app. cbn [filter snd map fst]. rewrite I1. split; [reflexivity|].
    split; [destruct tok as [[b y]|]; [|assumption]; destruct I2 as (? & ? & ?); repeat split; auto; apply in_or_app; auto|].
    split; [assumption|]. intros b e Hin. apply in_app_or in Hin. destruct Hin as [Hin|[Hin|[]]]; [now apply (I4 b)|]. discriminate.
Qed.
Lemma offer_ex r : exists o, offer_of r o.
Proof. destruct r as [m|]; cbn; [|eauto]. destruct (dget "access_token" m); eauto. Qed.
Lemma offer_holds d k t c o : offer_of (get_item d c t k) o ->
  forall a e, o = Some (a, e) <-> holds_token d k t c a e.
Proof.
  intros H a e. unfold holds_token. destruct (get_item d c t k) as [m|x]; cbn in H.
  - destruct (dget "access_token" m) as [b|] eqn:Ea; subst o.
    + split; [intros [= <- <-]; eauto|]. intros (m' & [= <-] & H1 & H2). congruence.
    + split; [discriminate|]. intros (m' & [= <-] & H1 & H2). congruence.
  - subst. split; [discriminate|]. intros (m' & Hm & _). discriminate.
Qed.
Lemma valid_token_run now d k r : get_valid_access_token now d k = r ->
  (exists e, r = Err e /\ exists t c, In (t, c) token_kinds /\
     ((get_item d c t k = Err e /\ is_key_error e = false) \/
      (e = TypeError /\ exists a v, holds_token d k t c a (Some v) /\ forall z, v <> VInt z))) \/
  exists o1 o2 o3 ind tok ex,
    offer_of (get_item d cTokenResponse "refresh_token_response" k) o1 /\
    offer_of (get_item d cTokenResponse "token_response" k) o2 /\
    offer_of (get_item d cAuthzResponse "auth_response" k) o3 /\
    let l o := match o with Some x => [x] | None => [] end in
    Inv now (l o1 ++ l o2 ++ l o3) (ind, tok, ex) /\
    r = match ind with a :: _ => Ok (a, 0%Z) | [] => match tok with Some t => Ok t | None => Err OidcServiceError end end.
Proof.
  intros H.
  assert (SE : forall t c acc e, scan_token now (get_item d c t k) acc = Err e ->
     (get_item d c t k = Err e /\ is_key_error e = false) \/
      (e = TypeError /\ exists a v, holds_token d k t c a (Some v) /\ forall z, v <> VInt z)).
  { intros t c [[ind tok] ex] e He. unfold scan_token in He. destruct (get_item d c t k) as [m|x] eqn:Ei.
    - destruct (dget "access_token" m) as [a|] eqn:Ea; [|discriminate].
      destruct (dget "__expires_at" m) as [v|] eqn:Ev; [|discriminate].
      destruct v; try (injection He as <-; right; split; [reflexivity|]; eexists; eexists; split; [exists m; eauto|]; discriminate).
      destruct (_ && _); discriminate.
    - left. destruct x; try discriminate; injection He as <-; auto. }
  unfold get_valid_access_token, rbind in H.
  destruct (scan_token now (get_item d cTokenResponse "refresh_token_response" k) ([], None, 0%Z)) as [a1|e] eqn:E1.
  2:{ left. exists e. split; [auto|]. exists "refresh_token_response", cTokenResponse. split; [simpl; auto|]. eauto. }
  destruct (scan_token now (get_item d cTokenResponse "token_response" k) a1) as [a2|e] eqn:E2.
  2:{ left. exists e. split; [auto|]. exists "token_response", cTokenResponse. split; [simpl; auto|]. eauto. }
  destruct (scan_token now (get_item d cAuthzResponse "auth_response" k) a2) as [a3|e] eqn:E3.
  2:{ left. exists e. split; [auto|]. exists "auth_response", cAuthzResponse. split; [simpl; auto|]. eauto. }
  right.
  destruct (offer_ex (get_item d cTokenResponse "refresh_token_response" k)) as [o1 O1].
  destruct (offer_ex (get_item d cTokenResponse "token_response" k)) as [o2 O2].
  destruct (offer_ex (get_item d cAuthzResponse "auth_response" k)) as [o3 O3].
  assert (I0 : Inv now [] ([], None, 0%Z)) by (cbn; repeat split; auto; try lia; tauto).
  pose proof (scan_inv _ _ _ _ _ _ I0 O1 E1) as I1. pose proof (scan_inv _ _ _ _ _ _ I1 O2 E2) as I2.
  pose proof (scan_inv _ _ _ _ _ _ I2 O3 E3) as I3. destruct a3 as [[ind tok] ex].
  exists o1, o2, o3, ind, tok, ex. repeat (split; [assumption|]). cbv zeta. cbn [app] in I3. rewrite <- app_assoc in I3. split; [exact I3|].
  subst r. destruct ind; [now destruct tok as [[]|]|reflexivity].
Qed.

(** ** C16 *)
Lemma mult_extend_dicts st ps orig typs : forall args r, mult_extend_loop st args ps typs orig = Ok r ->
  forall t, In t typs -> dget t st = None \/ exists i, dget t st = Some (VDict i).
Proof.
  induction typs as [|t typs IH]; intros args r H t' Ht; [contradiction|]. cbn in H.
  destruct (dget t st) as [[| | | | |i]|] eqn:Et; try discriminate.
  - destruct (msg_new cMessage i); [|discriminate]. destruct Ht as [<-|Ht]; [right; eauto|eapply IH; eauto].
  - destruct Ht as [<-|Ht]; [auto|eapply IH; eauto].
Qed.
Lemma newest_last_offer d k p typs st : get_state d k = Ok st ->
  (forall t m, In t typs -> get_item d cMessage t k = Ok m -> dget (verified p) m = None) ->
  (forall t, In t typs -> dget t st = None \/ exists i, dget t st = Some (VDict i)) ->
  last_offer false (present st typs) p = newest d k p typs.
Proof.
  intros Hs. induction typs as [|t typs IH]; intros Hv Hj; [reflexivity|].
  assert (IH' : last_offer false (present st typs) p = newest d k p typs).
  { apply IH; [intros; eapply Hv; [right|]; eassumption|intros; apply Hj; now right]. }
  cbn [present newest]. unfold get_item. rewrite Hs.
  assert (Hv' : forall m, get_item d cMessage t k = Ok m -> dget (verified p) m = None) by (intros; eapply Hv; [left; reflexivity|assumption]).
  unfold get_item in Hv'. rewrite Hs in Hv'.
  destruct (Hj t (or_introl eq_refl)) as [Et|[i Et]]; rewrite Et in *.
  - rewrite IH'. now destruct (newest d k p typs).
  - destruct (msg_new_plain i) as [m Hm]. rewrite Hm in *. cbn [last_offer]. rewrite IH'.
    destruct (newest d k p typs); [reflexivity|]. unfold offer. now rewrite (Hv' m eq_refl).
Qed.
Lemma extend_newest d k p typs r : multiple_extend_request_args d [] k [p] typs false = Ok r ->
  (forall t m, In t typs -> get_item d cMessage t k = Ok m -> dget (verified p) m = None) ->
  dget p r = newest d k p typs /\ (forall q, q <> p -> dget q r = None).
Proof.
  intros H Hv. pose proof H as H'. unfold multiple_extend_request_args in H'.
  destruct (get_state d k) as [st|] eqn:Es; [|discriminate].
  pose proof (mult_extend_dicts _ _ _ _ _ _ H') as D. split.
  - rewrite (mult_extend_spec _ _ _ _ _ _ _ _ Es H p). replace (mem_str p [p]) with true by (cbn; now rewrite eqb_refl).
    rewrite (newest_last_offer _ _ _ _ _ Es Hv D). now destruct (newest d k p typs).
  - intros q Hq. rewrite (mult_extend_spec _ _ _ _ _ _ _ _ Es H q). cbn. now rewrite (eqb_neq q p).
Qed.
Lemma active_spec now d k b :
  (forall t m, In t token_items -> get_item d cMessage t k = Ok m -> dget (verified (verified "id_token")) m = None) ->
  has_active_authentication now d k = Ok b ->
  b = true <-> exists claims e, newest d k (verified "id_token") token_items = Some (VDict claims) /\
                 dget "exp" claims = Some (VInt e) /\ (now < e)%Z.
Proof.
  intros Hv H. unfold has_active_authentication, rbind in H.
  destruct (multiple_extend_request_args d [] k [verified "id_token"] token_items false) as [r|] eqn:E; [|discriminate].
  destruct (extend_newest _ _ _ _ _ E Hv) as [G1 G2]. rewrite <- G1.
  destruct r as [|x r].
  - injection H as <-. cbn. split; [discriminate|]. intros (cl & e & Hx & _). discriminate.
  - unfold dict_get in H. destruct (dget (verified "id_token") (x :: r)) as [v|]; [|discriminate].
    destruct v as [| | | | |claims]; try discriminate.
    destruct (dget "exp" claims) as [v|] eqn:Ee; [|discriminate]. destruct v as [| |z| | |]; try discriminate.
    injection H as <-. rewrite Z.ltb_lt. split.
    + intros Hlt. exists claims, z. auto.
    + intros (cl & e & [= <-] & Hx & Hlt). congruence.
Qed.

(** ** C12 *)
Lemma same_set_spec rt ws : same_set rt ws = true <-> words_are rt ws.
Proof.
  unfold same_set, words_are. rewrite andb_true_iff, !forallb_forall. split.
  - intros [H1 H2]. split.
    + intros v Hv. specialize (H1 v Hv). destruct v; try discriminate. eauto.
    + intros w. split; intros H.
      * specialize (H1 _ H). cbn in H1. now apply mem_str_In.
      * specialize (H2 _ H). apply existsb_exists in H2. destruct H2 as (v & Hv & He). apply val_eqb_eq in He. now subst.
  - intros [H1 H2]. split.
    + intros v Hv. destruct (H1 v Hv) as [w ->]. apply mem_str_In, H2, Hv.
    + intros w Hw. apply existsb_exists. exists (VStr w). split; [now apply H2|now apply val_eqb_eq].
Qed.
Lemma words_are_eq rt ws ws' : words_are rt ws -> same_set rt ws' = forallb (fun w => mem_str w ws') ws && forallb (fun w => mem_str w ws) ws'.
Proof.
  intros [H1 H2]. apply eq_true_iff_eq. rewrite same_set_spec, andb_true_iff, !forallb_forall. split.
  - intros [_ G2]. split; intros w Hw; apply mem_str_In; [apply G2, H2, Hw|apply H2, G2, Hw].
  - intros [G1 G2]. split; [exact H1|]. intros w. split; intros H; [apply mem_str_In, G1, H2, H|apply H2, mem_str_In, G2, H].
Qed.
Lemma one_of_eq rt ws sets : words_are rt ws -> one_of rt sets =
  existsb (fun ws' => forallb (fun w => mem_str w ws') ws && forallb (fun w => mem_str w ws) ws') sets.
Proof. intros H. unfold one_of. induction sets as [|x s IH]; cbn; [reflexivity|]. now rewrite IH, (words_are_eq _ _ _ H). Qed.

(** what the front channel response gives *)
Definition front (s : source) (name : string) (resp : msg) : res val :=
  match s with Front => dict_get name resp | _ => Ok VNone end.
Lemma flow_spec W cl resp st collect c rq rt ws sa si :
  get_item (sdb c) cAuthzRequest "auth_request" st = Ok rq -> dget "response_type" rq = Some (VList rt) ->
  words_are rt ws -> In (ws, (sa, si)) flow_table ->
  get_access_and_id_token W cl resp st collect c =
  match front si (verified "id_token") resp, front sa "access_token" resp with
  | Err e, _ => (Err e, c)
  | Ok _, Err e => (Err e, c)
  | Ok i, Ok a =>
      if (match sa with Endpoint => true | Front => collect | Nowhere => false end)
      then tokens_from_endpoint W cl st c
      else (Ok (mktokens a i), c)
  end.
Proof.
  intros Hrq Hrt Hw Hin. unfold get_access_and_id_token, bind, read_db, lift, ret.
  rewrite Hrq, Hrt, !(one_of_eq _ _ _ Hw).
  cbn [flow_table In] in Hin.
  repeat (destruct Hin as [Hin|Hin]; [injection Hin as <- <- <-; cbn [forallb existsb mem_str andb orb eqs String.eqb Ascii.eqb Bool.eqb front]|]);
    try contradiction; try reflexivity;
    repeat (destruct (dict_get _ resp)); try destruct collect; reflexivity.
Qed.

(** ** C17 *)
Lemma newest_with_offer orig d k p typs st : get_state d k = Ok st ->
  (forall t, In t typs -> dget t st = None \/ exists i, dget t st = Some (VDict i)) ->
  last_offer orig (present st typs) p = newest_with (fun m => offer orig m p) d k typs.
Proof.
  intros Hs. induction typs as [|t typs IH]; intros Hj; [reflexivity|].
  assert (IH' : last_offer orig (present st typs) p = newest_with (fun m => offer orig m p) d k typs).
  { apply IH; intros; apply Hj; now right. }
  cbn [present newest_with]. unfold get_item. rewrite Hs.
  destruct (Hj t (or_introl eq_refl)) as [Et|[i Et]]; rewrite Et in *.
  - rewrite IH'. now destruct (newest_with _ d k typs).
  - destruct (msg_new_plain i) as [m Hm]. rewrite Hm in *. cbn [last_offer]. now rewrite IH'.
Qed.
Lemma extend_with orig d args k p typs r : multiple_extend_request_args d args k [p] typs orig = Ok r ->
  dget p r = match newest_with (fun m => offer orig m p) d k typs with Some v => Some v | None => dget p args end /\
  (forall q, q <> p -> dget q r = dget q args).
Proof.
  intros H. pose proof H as H'. unfold multiple_extend_request_args in H'.
  destruct (get_state d k) as [st|] eqn:Es; [|discriminate].
  pose proof (mult_extend_dicts _ _ _ _ _ _ H') as D. split.
  - rewrite (mult_extend_spec _ _ _ _ _ _ _ _ Es H p). replace (mem_str p [p]) with true by (cbn; now rewrite eqb_refl).
    now rewrite (newest_with_offer _ _ _ _ _ _ Es D).
  - intros q Hq. rewrite (mult_extend_spec _ _ _ _ _ _ _ _ Es H q). cbn. now rewrite (eqb_neq q p).
Qed.

(** the claims a response lets its claim sources fill in *)
Definition aggregated_names (resp : msg) : list string :=
  match dget "_claim_names" resp with Some (VDict names) => dkeys names | _ => [] end.
Lemma copy_claims_frame names src claims : forall resp r q, copy_claims names src claims resp = Ok r ->
  ~ In q (dkeys names) -> dget q r = dget q resp.
Proof.
  induction names as [|[n v] names IH]; intros resp r q H Hq; cbn in H; [now injection H as ->|].
  cbn [dkeys map fst In] in Hq. destruct v; try (eapply IH; [exact H|tauto]).
  destruct (s =?s src); [|eapply IH; [exact H|tauto]].
  destruct (dget n claims); [|discriminate]. rewrite (IH _ _ _ H) by tauto. apply dget_dset_neq. intros ->. tauto.
Qed.
Lemma aggregate_frame agg hdr sources : forall resp r q, aggregate agg hdr sources resp = Ok r ->
  ~ In "_claim_names" (aggregated_names resp) -> ~ In q (aggregated_names resp) -> dget q r = dget q resp.
Proof.
  induction sources as [|[src v] sources IH]; intros resp r q H Hn Hq; cbn [aggregate] in H; [now injection H as ->|].
  unfold rbind in H. destruct (spec_has "JWT" v) as [[|]|]; [| |discriminate].
  2:{ destruct (spec_has "endpoint" v) as [[|]|]; [|eapply IH; eauto|discriminate].
      destruct hdr; [|discriminate]. destruct (spec_get "endpoint" v); [eapply IH; eauto|discriminate]. }
  destruct (spec_get "JWT" v) as [[| | |j| |]|]; try discriminate.
  destruct (agg j) as [[claims|]|]; [|eapply IH; eauto|discriminate].
  unfold aggregated_names in Hn, Hq.
  destruct (dget "_claim_names" resp) as [[| | | | |names]|] eqn:En; try discriminate.
  destruct (copy_claims names src claims resp) as [resp'|] eqn:Ec; [|discriminate].
  assert (X : dget "_claim_names" resp' = Some (VDict names)) by (now rewrite (copy_claims_frame _ _ _ _ _ _ Ec Hn)).
  rewrite (IH _ _ _ H); [now apply (copy_claims_frame _ _ _ _ _ _ Ec)| |]; unfold aggregated_names; now rewrite X.
Qed.

Lemma userinfo_post_parse_spec agg resp st c r c' : userinfo_post_parse agg resp st c = (r, c') ->
  match r with
  | Err _ => c' = c
  | Ok m =>
      (forall cc, get_item (sdb c') cc "user_info" st = msg_new cc (msg_to_dict cMessage m)) /\
      (forall k, k <> st -> dget k (sdb c') = dget k (sdb c)) /\
      (forall idt sub, session_id_token (sdb c) st = Some (VDict idt) -> dget "sub" idt = Some sub ->
         dget "sub" resp = Some sub /\
         (~ In "sub" (aggregated_names resp) -> ~ In "_claim_names" (aggregated_names resp) -> dget "sub" m = Some sub))
  end.
Proof.
  unfold userinfo_post_parse, bind, read_db, lift, on_db, ret. intros H.
  destruct (multiple_extend_request_args (sdb c) [] st ["id_token"] token_items false) as [args|] eqn:Ea; [|now injection H as <- <-].
  destruct (check_sub args resp) as [[]|] eqn:Es; [|now injection H as <- <-].
  match type of H with context [match ?x with Ok _ => _ | Err _ => _ end] => destruct x as [m|] eqn:Em end; [|now injection H as <- <-].
  destruct (store_item (IMsg cMessage m) "user_info" st (sdb c)) as [[[]|] d] eqn:Est;
    pose proof (store_item_effect _ _ _ _ _ _ _ Est) as F; injection H as <- <-.
  2:{ cbn in F. subst d. apply set_db_same. }
  destruct F as (F1 & _ & _ & F4). cbn [sdb set_db]. split; [exact F1|]. split; [exact F4|].
  intros idt sub Hi Hsub. destruct (extend_with _ _ _ _ _ _ _ Ea) as [G _].
  assert (Hi' : newest_with (fun m => offer false m "id_token") (sdb c) st token_items = Some (VDict idt)) by exact Hi.
  rewrite Hi' in G. unfold check_sub in Es. rewrite G, Hsub in Es.
  destruct (dget "sub" resp) as [s|] eqn:Er; [|discriminate]. destruct (val_eqb s sub) eqn:Ev; [|discriminate].
  apply val_eqb_eq in Ev. subst s. split; [reflexivity|].
  intros H1 H2. destruct (dget "_claim_sources" resp) as [[| | | | |srcs]|]; try discriminate.
  - rewrite (aggregate_frame _ _ _ _ _ _ Em) by assumption. assumption.
  - now injection Em as <-.
Qed.
Lemma userinfo_wrong_sub agg resp st c idt sub :
  (exists a, multiple_extend_request_args (sdb c) [] st ["id_token"] token_items false = Ok a) ->
  session_id_token (sdb c) st = Some (VDict idt) -> dget "sub" idt = Some sub -> dget "sub" resp <> Some sub ->
  userinfo_post_parse agg resp st c =
  (Err (match dget "sub" resp with Some _ => ValueError | None => KeyError "sub" end), c).
Proof.
  intros [a Ha] Hi Hs Hr. unfold userinfo_post_parse, bind, read_db, lift. rewrite Ha.
  destruct (extend_with _ _ _ _ _ _ _ Ha) as [G _].
  assert (Hi' : newest_with (fun m => offer false m "id_token") (sdb c) st token_items = Some (VDict idt)) by exact Hi.
  rewrite Hi' in G. unfold check_sub. rewrite G, Hs.
  destruct (dget "sub" resp) as [s|] eqn:Er; [|reflexivity].
  destruct (val_eqb s sub) eqn:E; [|reflexivity]. apply val_eqb_eq in E. subst. congruence.
Qed.

(** ** C18 *)
Lemma backchannel_spec vrf request args c k : backchannel_logout vrf request args c = Ok k ->
  exists req v claims,
    (if request =?s "" then msg_new cBCLogout args else msg_from_urlencoded cBCLogout request) = Ok req /\
    vrf c req = Ok v /\ dget (verified "logout_token") v = Some (VDict claims) /\
    ((exists s, dget "sub" claims = Some (VStr s) /\ s <> "" /\ get_state_by_sub (sdb c) s = Ok k) \/
     (otruthy (dget "sub" claims) = false /\ exists s, dget "sid" claims = Some (VStr s) /\ s <> "" /\ get_state_by_sid (sdb c) s = Ok k)).
Proof.
  unfold backchannel_logout. intros H.
  destruct (if request =?s "" then match args with [] => Err MissingRequiredAttribute | _ => msg_new cBCLogout args end
            else msg_from_urlencoded cBCLogout request) as [req|] eqn:E; [|discriminate]. cbn [rbind] in H.
  destruct (vrf c req) as [v|] eqn:Ev; [|discriminate].
  unfold dict_get in H. destruct (dget (verified "logout_token") v) as [lt|] eqn:El; [|discriminate]. cbn [rbind] in H.
  destruct lt as [| | | | |claims]; try discriminate.
  exists req, v, claims. split; [destruct (request =?s ""); [destruct args; [discriminate|exact E]|exact E]|].
  split; [exact Ev|]. split; [exact El|].
  destruct (otruthy (dget "sub" claims)) eqn:Es.
  - left. destruct (dget "sub" claims) as [[| | |s| |]|]; try discriminate. exists s. repeat split; auto. intros ->. discriminate.
  - right. split; [reflexivity|]. destruct (otruthy (dget "sid" claims)) eqn:Ed; [|discriminate].
    destruct (dget "sid" claims) as [[| | |s| |]|]; try discriminate. exists s. repeat split; auto. intros ->. discriminate.
Qed.
