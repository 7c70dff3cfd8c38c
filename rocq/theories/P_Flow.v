(** The authorization request as a whole. *)
From Verif Require Import Base BaseP Json JsonP Msg M_State S_State P_State M_Ctx M_Codec M_Authz M_ClientAuth
  M_Service M_Token M_Handler S_Service S_Token S_Handler S_Flow P_Ctx P_Authz P_Codec P_ClientAuth P_Service P_Wire P_Token P_Handler.

Lemma bind_ok {A B} (m : M A) (f : A -> M B) c r c' : bind m f c = (Ok r, c') ->
  exists a c1, m c = (Ok a, c1) /\ f a c1 = (Ok r, c').
Proof. unfold bind. destruct (m c) as [[a|] c1]; [eauto|discriminate]. Qed.

(** a string parameter survives being stored and read back *)
Lemma ser_keys c m : dkeys (msg_to_dict c m) = dkeys m.
Proof.
  unfold dkeys, msg_to_dict. rewrite map_map. apply map_ext. intros [k v]. unfold ser_param.
  destruct (mem_str k (c_json c)); [reflexivity|]. destruct (mem_str k (c_sp c)); [|reflexivity].
  destruct v; try reflexivity. now destruct (all_strs l).
Qed.
Lemma ser_get c m p : dget p (msg_to_dict c m) = match dget p m with Some v => Some (snd (ser_param c (p, v))) | None => None end.
Proof.
  unfold msg_to_dict. induction m as [|[k v] m IH]; [reflexivity|]. cbn [map].
  assert (X : fst (ser_param c (k, v)) = k).
  { unfold ser_param. destruct (mem_str k (c_json c)); [reflexivity|]. destruct (mem_str k (c_sp c)); [|reflexivity].
    destruct v; try reflexivity. now destruct (all_strs l). }
  destruct (ser_param c (k, v)) as [k' v'] eqn:E. cbn [fst] in X. subst k'. cbn [dget].
  destruct (String.eqb_spec k p); [subst; now rewrite E|exact IH].
Qed.
Lemma stored_param c cc m m' p v : NoDup (dkeys m) -> msg_new cc (msg_to_dict c m) = Ok m' ->
  mem_str p (c_json c) = false -> mem_str p (c_json cc) = false -> mem_str p (c_sp cc) = false ->
  dget p m = Some (VStr v) -> v <> "" -> dget p m' = Some (VStr v).
Proof.
  intros N H J J' S Hp Hv. rewrite (msg_new_get cc (msg_to_dict c m) m'); [|now rewrite ser_keys|assumption].
  rewrite ser_get, Hp. cbn [ser_param snd]. rewrite J.
  assert (E : snd (if mem_str p (c_sp c) then (p, VStr v) else (p, VStr v)) = VStr v) by now destruct (mem_str p (c_sp c)).
  rewrite E. replace (skipped (VStr v)) with false; [|destruct v; [easy|reflexivity]]. unfold shown. now rewrite J', S.
Qed.

(** ** the hooks of the authorization service *)
Lemma set_state_spec rnd args kw c a c' st : dget "state" kw = None -> dget "state" args = Some (VStr st) -> st <> "" ->
  set_state rnd args kw c = (Ok a, c') ->
  a = dset "state" (VStr st) args /\ c' = set_db (sdb c') c /\
  get_state (sdb c') st = Ok (if issuer c =?s "" then [] else [("iss", VStr (issuer c))]) /\
  (forall q, q <> st -> dget q (sdb c') = dget q (sdb c)).
Proof.
  intros Hk Ha Hne. unfold set_state. rewrite Hk, Ha. destruct (create_state rnd (issuer c) st (sdb c)) as [[k|] d] eqn:E; [|discriminate].
  intros [= <- <-]. destruct (create_state_effect _ _ _ _ _ _ E) as (E1 & E2 & E3). unfold created_key in E1.
  rewrite (eqb_neq _ _ Hne) in E1. subst k. cbn [sdb set_db]. auto.
Qed.
Lemma oidc_pre_args_spec rnd args c a c' : oidc_pre_construct_args rnd args c = (Ok a, c') ->
  c' = c /\ (NoDup (dkeys args) -> NoDup (dkeys a)) /\
  (forall p, ~ In p ["response_type"; "scope"; "nonce"] -> dget p a = dget p args) /\
  (forall v, dget "nonce" args = Some v -> dget "nonce" a = Some v) /\
  (forall v, dget "response_type" args = Some v -> dget "response_type" a = Some v) /\
  (forall l, dget "scope" args = Some (VList l) -> exists l', dget "scope" a = Some (VList l') /\ In (VStr "openid") l' /\ incl l l' /\ incl l' (VStr "openid" :: l)) /\
  (forall s, dget "scope" args = Some (VStr s) -> contains "openid" s = true /\ dget "scope" a = Some (VStr s)) /\
  (dget "scope" args = None -> dget "scope" a = Some (match dget "scope" (behaviour c) with Some v => v | None => strs ["openid"] end)) /\
  ((dget "response_type" args = Some (VStr "code") \/ dget "response_type" args = Some (VStr "id_token")) -> dget "nonce" args = None ->
     dget "nonce" a = Some (VStr rnd)).
Proof.
  unfold oidc_pre_construct_args. intros H.
  destruct (match dget "response_type" args with
    | Some rt => (Some [rt], args)
    | None =>
        match dget "response_types" (behaviour c) with
        | Some (VList (v :: r)) => (Some (v :: r), dset "response_type" v args)
        | _ => (None, dset "response_type" (VStr "code") args)
        end
    end) as [rts a1] eqn:E1.
  assert (A1 : (NoDup (dkeys args) -> NoDup (dkeys a1)) /\ (forall p, p <> "response_type" -> dget p a1 = dget p args) /\
     (forall v, dget "response_type" args = Some v -> a1 = args /\ rts = Some [v])).
  { destruct (dget "response_type" args) as [rt|] eqn:Er.
    - injection E1 as <- <-. split; [auto|]. split; [auto|]. intros v [= <-]. auto.
    - assert (X : exists v, a1 = dset "response_type" v args).
      { destruct (dget "response_types" (behaviour c)) as [[| | | |[|x r]|]|]; injection E1 as <- <-; eauto. }
      destruct X as [v ->]. split; [apply NoDup_dset|]. split; [intros; apply dget_dset_neq; congruence|discriminate]. }
  clear E1. destruct A1 as (N1 & G1 & R1).
  match type of H with context [match ?x with Ok _ => _ | Err _ => _ end] => destruct x as [a2|e] eqn:E2 end; [|discriminate].
  assert (A2 : (NoDup (dkeys a1) -> NoDup (dkeys a2)) /\ (forall p, p <> "scope" -> dget p a2 = dget p a1) /\
     (forall l, dget "scope" a1 = Some (VList l) -> exists l', dget "scope" a2 = Some (VList l') /\ In (VStr "openid") l' /\ incl l l' /\ incl l' (VStr "openid" :: l)) /\
     (forall s, dget "scope" a1 = Some (VStr s) -> contains "openid" s = true /\ dget "scope" a2 = Some (VStr s)) /\
     (dget "scope" a1 = None -> dget "scope" a2 = Some (match dget "scope" (behaviour c) with Some v => v | None => strs ["openid"] end))).
  { destruct (dget "scope" a1) as [sc|] eqn:Es.
    - destruct (py_in "openid" sc) as [[|]|] eqn:Ep; [| |discriminate].
      + injection E2 as <-. split; [auto|]. split; [auto|]. split; [|split; [|discriminate]].
        * intros l [= ->]. cbn [py_in] in Ep. injection Ep as Ep. apply existsb_exists in Ep. destruct Ep as (x & Hx & Hv).
          apply val_eqb_eq in Hv. subst x. exists l. split; [exact Es|]. split; [assumption|]. split; [intros y; auto|intros y Hy; now right].
        * intros s [= ->]. cbn in Ep. injection Ep as Ep. auto.
      + destruct sc as [| | | |l|]; try discriminate. injection E2 as <-. split; [apply NoDup_dset|].
        split; [intros; apply dget_dset_neq; congruence|]. split; [|split; discriminate].
        intros l0 [= <-]. exists (l ++ [VStr "openid"]). split; [apply dget_dset_eq|]. split; [apply in_or_app; right; simpl; auto|].
        split; [intros y Hy; apply in_or_app; auto|]. intros y Hy. apply in_app_or in Hy. simpl in *. tauto.
    - injection E2 as <-. split; [apply NoDup_dset|]. split; [intros; apply dget_dset_neq; congruence|].
      split; [discriminate|]. split; [discriminate|]. intros _. apply dget_dset_eq. }
  clear E2. destruct A2 as (N2 & G2 & S1 & S2 & S3). rewrite (G1 "scope") in * by discriminate.
  assert (FIN : c' = c /\ (a = a2 \/ a = dsetdefault "nonce" (VStr rnd) a2) /\
     ((dget "response_type" args = Some (VStr "code") \/ dget "response_type" args = Some (VStr "id_token")) -> a = dsetdefault "nonce" (VStr rnd) a2)).
  { destruct rts as [l|].
    - destruct (_ || _) eqn:Eb; injection H as <- <-; split; auto; split; auto; intros Hr.
      exfalso. apply orb_false_iff in Eb. destruct Eb as [B1 B2].
      destruct Hr as [Hr|Hr]; destruct (R1 _ Hr) as [_ X]; injection X as ->; discriminate.
    - assert (X : (Ok a, c') = (Ok a2, c)) by (destruct (dget "response_types" (behaviour c)) as [[| | | |[|x r]|]|]; try discriminate; congruence).
      injection X as -> ->. split; auto. split; auto. intros [Hr|Hr]; destruct (R1 _ Hr); discriminate. }
  clear H. destruct FIN as (-> & Ha & Hn). split; [reflexivity|].
  assert (GA : forall p, p <> "nonce" -> dget p a = dget p a2).
  { intros p Hp. destruct Ha as [->| ->]; [reflexivity|]. rewrite dget_dsetdefault, eqb_neq by congruence. now destruct (dget p a2). }
  rewrite !(GA "scope") by discriminate. split; [|split; [|split; [|split; [|split; [exact S1|split; [exact S2|split; [exact S3|]]]]]]].
  - intros N. destruct Ha as [->| ->]; [auto|]. apply NoDup_dsetdefault. auto.
  - intros p Hp. cbn in Hp. rewrite GA, G2, G1; [reflexivity|..]; intros ->; tauto.
  - intros v Hv. assert (X : dget "nonce" a2 = Some v) by (rewrite G2, G1; [assumption|discriminate|discriminate]).
    destruct Ha as [->| ->]; [assumption|]. now rewrite dget_dsetdefault, X.
  - intros v Hv. rewrite GA, G2 by discriminate. destruct (R1 _ Hv) as [-> _]. exact Hv.
  - intros Hr Hno. rewrite (Hn Hr), dget_dsetdefault. rewrite G2, G1, Hno by discriminate. reflexivity.
Qed.

Lemma add_challenge_spec hash unres args post kw c a p c' st :
  dget "state" args = Some (VStr st) -> add_code_challenge hash unres args post kw c = (Ok (a, p), c') ->
  exists n m v, p = post /\ c' = set_db (sdb c') c /\
    pkce_setting c n m /\ v = unres n /\ In m cc_methods /\
    a = dset "code_challenge_method" (VStr m) (dset "code_challenge" (VStr (b64e (hash m v))) args) /\
    (forall cc, get_item (sdb c') cc "pkce" st = msg_new cc [("code_verifier", VStr v); ("code_challenge_method", VStr m)]) /\
    (exists s, get_state (sdb c') st = Ok s) /\
    (forall i, get_iss (sdb c) st = Ok i -> get_iss (sdb c') st = Ok i) /\
    (forall q, q <> st -> dget q (sdb c') = dget q (sdb c)).
Proof.
  intros Hst. unfold add_code_challenge, pkce_conf. intros H.
  destruct (dget "pkce" (add_on c)) as [[| | | | |conf]|] eqn:Ecf; try discriminate. cbn [rbind] in H.
  destruct (pkce_length conf) as [n|] eqn:En; [|discriminate]. cbn [rbind] in H.
  match type of H with context [rbind ?x _] => destruct x as [m|] eqn:Em0 end; [|discriminate]. cbn [rbind] in H.
  assert (PS : pkce_setting c n m).
  { exists conf. split; [exact Ecf|]. split.
    - unfold pkce_length in En. destruct (dget "code_challenge_length" conf) as [[]|]; try discriminate; [eexists; split; [reflexivity|congruence]|congruence].
    - destruct (dget "code_challenge_method" conf) as [[]|]; congruence. }
  destruct (mem_str m cc_methods) eqn:Em; [|discriminate]. rewrite Hst in H.
  unfold bind, on_db, ret in H.
  match type of H with context [store_item ?a ?b ?d ?e] => destruct (store_item a b d e) as [[[]|] d1] eqn:Es end; [|discriminate].
  injection H as <- <- <-. pose proof (store_item_effect _ _ _ _ _ _ _ Es) as F. destruct F as (F1 & F2 & F3 & F4).
  exists n, m, (unres n). do 6 (split; [first [reflexivity|assumption|now apply mem_str_In]|]). cbn [sdb set_db]. split; [|split; [|split; [|exact F4]]].
  - exact F1.
  - destruct (msg_new_plain (msg_to_dict cMessage [("code_verifier", VStr (unres n)); ("code_challenge_method", VStr m)])) as [x Hx].
    pose proof (F1 cMessage) as G. rewrite Hx in G. eapply get_item_state; eauto.
  - apply F3. discriminate.
Qed.

Lemma oidc_post_spec st req c r c' : st <> "" -> NoDup (dkeys req) -> dget "state" req = Some (VStr st) ->
  (forall n, st <> idx "nonce" n) -> st <> ref_key st ->
  oidc_post_construct req c = (Ok r, c') ->
  NoDup (dkeys r) /\ (forall p, p <> "prompt" -> dget p r = dget p req) /\ c' = set_db (sdb c') c /\
  (forall cc, get_item (sdb c') cc "auth_request" st = msg_new cc (msg_to_dict cAuthzRequest r)) /\
  (forall cc t, t <> "auth_request" -> (exists s, get_state (sdb c) st = Ok s) -> get_item (sdb c') cc t st = get_item (sdb c) cc t st) /\
  (forall i, get_iss (sdb c) st = Ok i -> get_iss (sdb c') st = Ok i) /\
  (forall q, q <> st -> q <> ref_key st -> (forall n, dget "nonce" req = Some (VStr n) -> q <> idx "nonce" n) -> dget q (sdb c') = dget q (sdb c)) /\
  (forall n, dget (idx "nonce" n) (sdb c) = Some st -> dget (idx "nonce" n) (sdb c') = Some st) /\
  (forall sc rt w, dget "scope" req = Some (VList sc) -> In (VStr "openid") sc -> dget "response_type" req = Some (VList (VStr w :: rt)) ->
     contains "id_token" w || contains "code" w = true ->
     exists n, dget "nonce" req = Some (VStr n) /\ dget (idx "nonce" n) (sdb c') = Some st) /\
  (forall sc, dget "scope" req = Some (VList sc) -> In (VStr "offline_access") sc -> dhas "prompt" req = false -> dget "prompt" r = Some (strs ["consent"])).
Proof.
  intros Hne N Hst Hi Hr H. unfold oidc_post_construct in H.
  destruct (dget "scope" req) as [sc|] eqn:Es; [|discriminate].
  destruct (py_in "openid" sc) as [o|] eqn:Eo; [|discriminate]. destruct (py_in "offline_access" sc) as [off|] eqn:Eoff; [|discriminate].
  apply bind_ok in H. destruct H as (u & c1 & H1 & H2).
  assert (A : c1 = set_db (sdb c1) c /\
    (forall q, q <> ref_key st -> (forall n, dget "nonce" req = Some (VStr n) -> q <> idx "nonce" n) -> dget q (sdb c1) = dget q (sdb c)) /\
    (forall n, dget (idx "nonce" n) (sdb c) = Some st -> dget (idx "nonce" n) (sdb c1) = Some st) /\
    (o = true -> forall w rt, dget "response_type" req = Some (VList (VStr w :: rt)) -> contains "id_token" w || contains "code" w = true ->
       exists n, dget "nonce" req = Some (VStr n) /\ dget (idx "nonce" n) (sdb c1) = Some st)).
  { destruct o.
    2:{ injection H1 as _ <-. split; [now rewrite set_db_same|]. split; [auto|]. split; [auto|discriminate]. }
    destruct (dget "response_type" req) as [[| | | |[|x rt]|]|]; try discriminate.
    destruct x as [| | |w| |]; try discriminate.
    destruct (contains "id_token" w || contains "code" w) eqn:Ec.
    - destruct (dget "nonce" req) as [[| | |n| |]|]; try (rewrite Hst in H1; discriminate); try discriminate.
      rewrite Hst in H1. unfold on_db in H1. destruct (store_nonce2state n st (sdb c)) as [q d] eqn:En. injection H1 as -> <-.
      destruct (store_x_effect _ _ _ _ _ _ in_nonce En) as [B1 B2]. split; [reflexivity|]. cbn [sdb set_db]. split; [|split].
      + intros q Hq Hn. apply B2; [now apply Hn|assumption].
      + intros n' Hn'. destruct (String.eqb_spec n' n); [now subst|]. rewrite B2; [assumption| |].
        * intros C. apply idx_inj in C; [tauto|apply in_nonce|apply in_nonce].
        * apply idx_ref, in_nonce.
      + intros _ w' rt' [= <- <-] _. eauto.
    - injection H1 as _ <-. split; [now rewrite set_db_same|]. split; [auto|]. split; [auto|].
      intros _ w' rt' [= <- <-]. congruence. }
  destruct A as (A0 & A1 & A2 & A3).
  set (req1 := if off && negb (dhas "prompt" req) then dset "prompt" (strs ["consent"]) req else req) in *.
  assert (Q : NoDup (dkeys req1) /\ (forall p, p <> "prompt" -> dget p req1 = dget p req)).
  { unfold req1. destruct (off && negb (dhas "prompt" req)); [|auto]. split; [now apply NoDup_dset|]. intros p Hp. apply dget_dset_neq. congruence. }
  destruct Q as [Q1 Q2]. rewrite (Q2 "state") in H2 by discriminate. rewrite Hst in H2.
  apply bind_ok in H2. destruct H2 as ([] & c2 & H2 & H3). injection H3 as <- <-.
  unfold on_db in H2. destruct (store_item (IMsg cAuthzRequest req1) "auth_request" st (sdb c1)) as [q d] eqn:Ei. injection H2 as -> <-.
  pose proof (store_item_effect _ _ _ _ _ _ _ Ei) as F. cbn in F. destruct F as (F1 & F2 & F3 & F4). cbn [sdb set_db].
  assert (SF : dget st (sdb c1) = dget st (sdb c)) by (apply A1; auto).
  split; [exact Q1|]. split; [exact Q2|]. split; [now rewrite A0|]. split; [exact F1|]. split; [|split; [|split; [|split; [|split]]]].
  - intros cc t Ht [s Hs]. rewrite F2; [|assumption|exists s; now rewrite (get_state_frame _ _ _ SF)].
    unfold get_item. now rewrite (get_state_frame _ _ _ SF).
  - intros i Hii. apply F3; [discriminate|]. unfold get_iss in *. now rewrite (get_state_frame _ _ _ SF).
  - intros q B1 B2 B3. rewrite F4 by assumption. now apply A1.
  - intros n Hn. rewrite F4; [now apply A2|]. apply not_eq_sym, Hi.
  - intros sc0 rt w [= ->] Hin Hrt Hw. cbn [py_in] in Eo. injection Eo as Eo.
    destruct (A3 ltac:(rewrite <- Eo; apply existsb_exists; exists (VStr "openid"); split; [assumption|now apply val_eqb_eq]) w rt Hrt Hw) as (n & C1 & C2).
    exists n. split; [assumption|]. rewrite F4; [assumption|]. apply not_eq_sym, Hi.
  - intros sc0 [= ->] Hin Hp. cbn [py_in] in Eoff. injection Eoff as Eoff.
    assert (off = true) by (rewrite <- Eoff; apply existsb_exists; exists (VStr "offline_access"); split; [assumption|now apply val_eqb_eq]).
    subst off. unfold req1. rewrite H, Hp. apply dget_dset_eq.
Qed.

Definition kwb (beh : option (dict val)) : dict val := match beh with Some b => [("behaviour_args", VDict b)] | None => [] end.
(** the PKCE facts about a request and a session *)
Definition pkce_bound (W : env) (c0 : ctx) (req : msg) (d : db) (st : string) : Prop :=
  exists n m v, pkce_setting c0 n m /\
    v = unreserved (e_rand W) n /\ In m cc_methods /\
    dget "code_challenge" req = Some (VStr (b64e (e_hash W m v))) /\ dget "code_challenge_method" req = Some (VStr m) /\
    forall cc, get_item d cc "pkce" st = msg_new cc [("code_verifier", VStr v); ("code_challenge_method", VStr m)].

Lemma b64e_nonempty s : s <> "" -> b64e s <> "".
Proof.
  intros H E. apply H. pose proof (b64e_roundtrip s) as X. rewrite E in X. injection X as <-. reflexivity.
Qed.

Lemma method_args_plain s what kw : dget what (s_conf s) = None -> method_args s what kw = kw.
Proof. unfold method_args. now intros ->. Qed.

(** the fields of the authorization service *)
Lemma authz_fields W cl :
  s_pre (authz_svc W cl) = ([lift_pre (set_state (e_state2 W)); lift_pre (fun a _ => pre_construct_pick_redirect_uri a); oidc_pre_construct (e_nonce2 W)]
    ++ (if cl_pkce cl then [add_code_challenge (e_hash W) (unreserved (e_rand W))] else [])) /\
  s_post (authz_svc W cl) = [oidc_authz_post (e_reqobj W)] /\ s_gather (authz_svc W cl) = authz_gather /\
  s_cls (authz_svc W cl) = cAuthzRequest /\ s_conf (authz_svc W cl) = conf_of cl "authorization" /\
  s_http_method (authz_svc W cl) = "GET" /\ s_extra (authz_svc W cl) = [] /\ (forall c, s_authn (authz_svc W cl) c = "") /\
  s_endpoint (authz_svc W cl) = "" /\ s_endpoint_name (authz_svc W cl) = "authorization_endpoint".
Proof. repeat split. Qed.

Lemma authz_construct W cl args beh c sent c' st :
  plain_conf (conf_of cl "authorization") -> NoDup (dkeys args) ->
  dget "state" args = Some (VStr st) -> st <> "" -> (forall n, st <> idx "nonce" n) -> st <> ref_key st ->
  (forall m v, e_hash W m v <> "") ->
  construct (authz_svc W cl) args (kwb beh) c = (Ok sent, c') ->
  exists req, (no_request_object beh -> sent = req) /\
  NoDup (dkeys req) /\ c' = set_db (sdb c') c /\
  (forall p v, ~ In p ["response_type"; "scope"; "redirect_uri"; "prompt"; "code_challenge"; "code_challenge_method"] ->
     mem_str p (c_sp cAuthzRequest) = false -> dget p args = Some v -> skipped v = false -> dget p req = Some v) /\
  (forall v, dget "redirect_uri" args = Some v -> skipped v = false -> dget "redirect_uri" req = Some v) /\
  (forall v, dget "response_type" args = Some v -> skipped v = false -> dget "response_type" req = shown cAuthzRequest "response_type" v) /\
  (forall l, dget "scope" args = Some (VList l) -> exists l', dget "scope" req = Some (VList l') /\ In (VStr "openid") l' /\ incl l l' /\ incl l' (VStr "openid" :: l)) /\
  (forall cc, get_item (sdb c') cc "auth_request" st = msg_new cc (msg_to_dict cAuthzRequest req)) /\
  (issuer c <> "" -> get_iss (sdb c') st = Ok (VStr (issuer c))) /\
  (forall q, q <> st -> q <> ref_key st -> (forall n, dget "nonce" req = Some (VStr n) -> q <> idx "nonce" n) -> dget q (sdb c') = dget q (sdb c)) /\
  (forall n, dget (idx "nonce" n) (sdb c) = Some st -> dget (idx "nonce" n) (sdb c') = Some st) /\
  (forall sc rt w, dget "scope" req = Some (VList sc) -> In (VStr "openid") sc -> dget "response_type" req = Some (VList (VStr w :: rt)) ->
     contains "id_token" w || contains "code" w = true ->
     exists n, dget "nonce" req = Some (VStr n) /\ dget (idx "nonce" n) (sdb c') = Some st) /\
  (dget "scope" args = None -> forall v, dget "scope" (behaviour c) = Some v -> skipped v = false -> dget "scope" req = shown cAuthzRequest "scope" v) /\
  ((dget "response_type" args = Some (VStr "code") \/ dget "response_type" args = Some (VStr "id_token")) -> dget "nonce" args = None ->
     e_nonce2 W <> "" -> dget "nonce" req = Some (VStr (e_nonce2 W))) /\
  (cl_pkce cl = true -> pkce_bound W c req (sdb c') st) /\
  (dget "client_id" args = None -> client_id c <> "" -> dget "client_id" req = Some (VStr (client_id c))).
Proof.
  destruct (authz_fields W cl) as (AF1 & AF2 & AF3 & AF4 & AF5 & _).
  generalize dependent (authz_svc W cl). intros s AF1 AF2 AF3 AF4 AF5.
  intros [PC1 PC2] N Hst Hne Hidx Href Hhash H. apply construct_inv in H.
  destruct H as (a1 & post & c1 & out & req0 & E1 & E2 & E3 & E4).
  unfold do_pre_construct in E1. rewrite method_args_plain in E1 by (rewrite AF5; exact PC1).
  unfold do_post_construct in E4. rewrite method_args_plain in E4 by (rewrite AF5; exact PC2).
  assert (KS : dget "state" (kwb beh) = None) by (destruct beh; reflexivity).
  rewrite AF1 in E1. cbn [app run_pre] in E1.
  (* set_state *)
  apply bind_ok in E1. destruct E1 as ([b1 p1] & d1 & S1 & E1). unfold lift_pre in S1. apply bind_ok in S1.
  destruct S1 as (x & d1' & S1 & S1'). injection S1' as <- <- <-. cbn [fst snd] in E1.
  destruct (set_state_spec _ _ _ _ _ _ _ KS Hst Hne S1) as (-> & T1 & T2 & T3). clear S1.
  (* redirect uri *)
  apply bind_ok in E1. destruct E1 as ([b2 p2] & d2 & S2 & E1). unfold lift_pre in S2. apply bind_ok in S2.
  destruct S2 as (x & d2' & S2 & S2'). injection S2' as <- <- <-. cbn [fst snd] in E1.
  unfold pre_construct_pick_redirect_uri in S2.
  destruct (pick_redirect_uri d1' (Some (dset "state" (VStr st) args)) None) as [ru|] eqn:Eru; [|discriminate].
  injection S2 as <- <-.
  (* oidc *)
  apply bind_ok in E1. destruct E1 as ([bx p3] & d3 & S3 & E1). unfold oidc_pre_construct in S3. apply bind_ok in S3.
  destruct S3 as (b3 & d3' & S3 & S3'). injection S3' as <- <- <-. cbn [fst snd] in E1.
  destruct (oidc_pre_args_spec _ _ _ _ _ S3) as (-> & U1 & U2 & U3 & U4 & U5 & _ & U7 & U8). clear S3.
  set (args2 := dset "redirect_uri" ru (dset "state" (VStr st) args)) in *.
  assert (N2 : NoDup (dkeys args2)) by (unfold args2; auto using NoDup_dset).
  assert (G2 : forall p, p <> "redirect_uri" -> p <> "state" -> dget p args2 = dget p args).
  { intros p P1 P2. unfold args2. rewrite !dget_dset_neq by congruence. reflexivity. }
  assert (G2s : dget "state" args2 = Some (VStr st)) by (unfold args2; rewrite dget_dset_neq by congruence; apply dget_dset_eq).
  assert (G2r : forall v, dget "redirect_uri" args = Some v -> dget "redirect_uri" args2 = Some v).
  { intros v Hv. unfold args2. rewrite dget_dset_eq. f_equal.
    unfold pick_redirect_uri in Eru. rewrite dget_dset_neq, Hv in Eru by discriminate. congruence. }
  (* pkce *)
  assert (PK : c1 = set_db (sdb c1) d1' /\ (NoDup (dkeys b3) -> NoDup (dkeys a1)) /\
     (forall p, ~ In p ["code_challenge"; "code_challenge_method"] -> dget p a1 = dget p b3) /\
     (exists s, get_state (sdb c1) st = Ok s) /\ (forall i, get_iss (sdb d1') st = Ok i -> get_iss (sdb c1) st = Ok i) /\
     (forall q, q <> st -> dget q (sdb c1) = dget q (sdb d1')) /\
     post = oidc_pre_post_args [] (kwb beh) /\
     (cl_pkce cl = true -> exists n m v, pkce_setting c n m /\
        v = unreserved (e_rand W) n /\ In m cc_methods /\ dget "code_challenge" a1 = Some (VStr (b64e (e_hash W m v))) /\
        dget "code_challenge_method" a1 = Some (VStr m) /\
        forall cc, get_item (sdb c1) cc "pkce" st = msg_new cc [("code_verifier", VStr v); ("code_challenge_method", VStr m)])).
  { destruct (cl_pkce cl).
    - cbn [run_pre] in E1. apply bind_ok in E1. destruct E1 as ([b4 p4] & d4 & S4 & E1). cbn [fst snd] in E1. injection E1 as <- <- <-.
      assert (B3s : dget "state" b3 = Some (VStr st)) by (rewrite U2; [exact G2s|cbn; intuition discriminate]).
      destruct (add_challenge_spec _ _ _ _ _ _ _ _ _ _ B3s S4) as (n & m & v & V1 & V2 & V3 & V4 & V5 & V6 & V7 & V8 & V9 & V10).
      subst p4 b4. split; [exact V2|]. split; [auto using NoDup_dset|]. split.
      { intros p Hp. cbn in Hp. rewrite !dget_dset_neq; [reflexivity| |]; intros <-; tauto. }
      split; [exact V8|]. split; [exact V9|]. split; [exact V10|]. split; [reflexivity|]. intros _.
      exists n, m, v. rewrite T1 in V3. split; [exact V3|]. split; [exact V4|]. split; [exact V5|].
      split; [rewrite dget_dset_neq by discriminate; apply dget_dset_eq|]. split; [apply dget_dset_eq|]. exact V7.
    - cbn [run_pre] in E1. injection E1 as <- <- <-. split; [now rewrite set_db_same|]. split; [auto|]. split; [auto|].
      split; [eauto|]. split; [auto|]. split; [auto|]. split; [reflexivity|discriminate]. }
  clear E1. destruct PK as (K0 & K1 & K2 & K3 & K4 & K5 & K6 & K7).
  assert (NA : NoDup (dkeys a1)) by auto.
  (* gathering *)
  unfold state_default in E2. rewrite KS in E2. unfold gather_request_args in E2.
  destruct (gather_loop s c1 (c_par (s_cls s)) a1) as [o1|] eqn:E5; [|discriminate]. cbn [rbind] in E2.
  destruct (gather_loop_get _ _ _ _ _ E5) as [NO GO]. specialize (NO NA).
  assert (OUT : NoDup (dkeys out) /\ forall p v, dget p a1 = Some v -> dget p out = Some v).
  { rewrite AF3 in E2. unfold authz_gather in E2. destruct (dhas "redirect_uri" o1) eqn:Er.
    - injection E2 as <-. split; [assumption|]. intros p v Hp. now rewrite GO, Hp.
    - destruct (redirect_uris c1); [discriminate|]. injection E2 as <-. split; [now apply NoDup_dset|].
      intros p v Hp. rewrite dget_dset_neq; [now rewrite GO, Hp|]. intros <-. unfold dhas in Er. now rewrite GO, Hp in Er. }
  assert (OID : dget "client_id" args = None -> client_id c <> "" -> dget "client_id" out = Some (VStr (client_id c))).
  { intros Hn Hc. assert (A : dget "client_id" a1 = None).
    { rewrite K2 by (cbn; intuition discriminate). rewrite U2 by (cbn; intuition discriminate). now rewrite G2 by discriminate. }
    assert (B : dget "client_id" o1 = Some (VStr (client_id c))).
    { rewrite GO, A, AF4. change (mem_str "client_id" (c_par cAuthzRequest)) with true. cbn iota.
      assert (C : client_id c1 = client_id c) by (rewrite K0, T1; reflexivity). unfold gathered, ctx_get.
      cbn [dget String.eqb Ascii.eqb Bool.eqb]. rewrite C. destruct (client_id c); [easy|reflexivity]. }
    rewrite AF3 in E2. unfold authz_gather in E2. destruct (dhas "redirect_uri" o1); [congruence|].
    destruct (redirect_uris c1); [discriminate|]. injection E2 as <-. now rewrite dget_dset_neq by discriminate. }
  clear E2 E5 NO GO. destruct OUT as [NO GO].
  rewrite AF4 in E3.
  assert (NR : NoDup (dkeys req0)) by (eapply msg_new_NoDup; [|exact E3]; constructor).
  assert (GR : forall p v, dget p a1 = Some v -> skipped v = false -> dget p req0 = shown cAuthzRequest p v).
  { intros p v Hp Hs. rewrite (msg_new_get _ _ _ NO E3), (GO _ _ Hp). now rewrite Hs. }
  assert (GP : forall p v, dget p a1 = Some v -> skipped v = false -> mem_str p (c_sp cAuthzRequest) = false -> dget p req0 = Some v).
  { intros p v Hp Hs Hm. rewrite (GR _ _ Hp Hs). now apply shown_plain. }
  assert (ST : dget "state" req0 = Some (VStr st)).
  { apply GP; [|destruct st; [easy|reflexivity]|reflexivity]. rewrite K2 by (cbn; intuition discriminate).
    rewrite U2 by (cbn; intuition discriminate). exact G2s. }
  (* post *)
  rewrite AF2 in E4. cbn [run_post] in E4. apply bind_ok in E4. destruct E4 as (r1 & e1 & S4 & E4).
  injection E4 as <- <-. unfold oidc_authz_post in S4. apply bind_ok in S4. destruct S4 as (r2 & e2 & S4 & S5).
  assert (RP : e1 = e2).
  { clear -S5. unfold oidc_request_param in S5.
    destruct (dget "request_param" _) as [[| | |p0| |]|]; try (destruct (truthy _) in S5; congruence); try (injection S5; congruence).
    destruct (p0 =?s ""); [congruence|]. destruct (e_reqobj W e2 r2 p0 _); congruence. }
  subst e1.
  assert (RP : no_request_object beh -> r1 = r2).
  { intros NRO. unfold oidc_request_param in S5.
    assert (X : dget "request_param" (post_args (kwb beh) post) = None).
    { subst post. destruct beh as [b|]; [|reflexivity].
      change (post_args (kwb (Some b)) (oidc_pre_post_args [] (kwb (Some b)))) with (dupdate [] b).
      rewrite dget_dupdate. cbn [no_request_object] in NRO.
      assert (Y : dget "request_param" (rev b) = None); [|now rewrite Y].
      apply dget_None_In. intros C. apply NRO. unfold dkeys in *. rewrite map_rev in C. now apply in_rev in C. }
    rewrite X in S5. congruence. }
  clear S5. exists r2. split; [exact RP|].
  destruct (oidc_post_spec _ _ _ _ _ Hne NR ST Hidx Href S4) as (Q1 & Q2 & Q3 & Q4 & Q5 & Q6 & Q7 & Q8 & Q9 & Q10).
  assert (CT : c1 = set_db (sdb c1) c) by (rewrite K0, T1; reflexivity).
  split; [exact Q1|]. split; [rewrite Q3, CT; reflexivity|]. split; [|split; [|split; [|split; [|split; [|split; [|split; [|split; [|split; [|split; [|split; [|split]]]]]]]]]]].
  - intros p v Hp Hsp Hv Hs. cbn in Hp. destruct (String.eqb_spec p "state") as [->|Ns].
    + rewrite Hst in Hv. injection Hv as <-. rewrite Q2 by discriminate. exact ST.
    + rewrite Q2 by (intros ->; tauto). apply GP; [|assumption|assumption]. rewrite K2 by (cbn; intuition congruence).
      destruct (String.eqb_spec p "nonce") as [->|Nn].
      * apply U3. now rewrite G2 by discriminate.
      * rewrite U2 by (cbn; intuition congruence). rewrite G2; [assumption| |]; intros ->; tauto.
  - intros v Hv Hs. rewrite Q2 by discriminate. apply GP; [|assumption|reflexivity]. rewrite K2 by (cbn; intuition discriminate).
    rewrite U2 by (cbn; intuition discriminate). now apply G2r.
  - intros v Hv Hs. rewrite Q2 by discriminate. apply GR; [|assumption]. rewrite K2 by (cbn; intuition discriminate).
    apply U4. now rewrite G2 by discriminate.
  - intros l Hl. destruct (U5 l) as (l' & L1 & L2 & L3); [now rewrite G2 by discriminate|]. exists l'. split; [|auto].
    rewrite Q2 by discriminate. rewrite (GR "scope" (VList l')); [reflexivity| |].
    + now rewrite K2 by (cbn; intuition discriminate).
    + destruct l' as [|[| | |[|]| |] [|]]; try reflexivity. cbn in L2. intuition discriminate.
  - exact Q4.
  - intros Hi. apply Q6, K4. unfold get_iss. rewrite T2. rewrite (eqb_neq _ _ Hi). reflexivity.
  - intros q A B C. rewrite Q7; [|assumption|assumption|].
    + rewrite K5 by assumption. now apply T3.
    + intros n Hn. apply C. rewrite Q2 by discriminate. exact Hn.
  - intros n Hn. apply Q8. rewrite K5 by (intros C; symmetry in C; now apply Hidx in C). rewrite T3; [assumption|].
    intros C; symmetry in C; now apply Hidx in C.
  - intros sc rt w A B C D. rewrite Q2 in A, C by discriminate. destruct (Q9 sc rt w A B C D) as (n & X & Y).
    exists n. split; [now rewrite Q2 by discriminate|assumption].
  - intros Hn v Hv Hs. rewrite Q2 by discriminate. apply GR; [|assumption]. rewrite K2 by (cbn; intuition discriminate).
    rewrite U7 by (now rewrite G2 by discriminate). f_equal. rewrite T1. cbn [behaviour set_db]. now rewrite Hv.
  - intros Hr Hn He. rewrite Q2 by discriminate. apply GP; [|destruct (e_nonce2 W); [easy|reflexivity]|reflexivity].
    rewrite K2 by (cbn; intuition discriminate). apply U8; rewrite !G2 by discriminate; assumption.
  - intros Hp. destruct (K7 Hp) as (n & m & v & A & B & C & D & F & G). exists n, m, v.
    split; [exact A|]. split; [exact B|]. split; [exact C|]. split; [|split].
    + rewrite Q2 by discriminate. apply GP; [assumption| |reflexivity].
      pose proof (b64e_nonempty _ (Hhash m v)). destruct (b64e (e_hash W m v)); [easy|reflexivity].
    + rewrite Q2 by discriminate. apply GP; [assumption| |reflexivity]. cbn in C. intuition (subst; reflexivity).
    + intros cc. rewrite Q5; [apply G|discriminate|exact K3].
  - intros Hn Hc. rewrite Q2 by discriminate. rewrite (msg_new_get _ _ _ NO E3), (OID Hn Hc).
    cbn [skipped]. destruct (client_id c) eqn:Ec; [easy|]. reflexivity.
Qed.

(** ** GET requests without client authentication *)
Lemma with_query_none u req : u_query (urlsplit u) = "" -> with_query u req = req.
Proof. intros H. unfold with_query. rewrite H. reflexivity. Qed.
Lemma encoded_list c m p l ws : NoDup (dkeys m) -> dget p m = Some (VList l) -> mem_str p (c_sp c) = true ->
  mem_str p (c_json c) = false -> all_strs l = Some ws -> join " " ws <> "" ->
  dget p (parse_qs (urlencode (msg_pairs c m))) = Some [join " " ws].
Proof.
  intros N H Hsp Hj Hw Hv. rewrite parse_qs_values, parse_urlencode.
  assert (E : values_of p (filter nonblank (msg_pairs c m)) = filter (fun s => negb (s =?s "")) (values_of p (msg_pairs c m))).
  { unfold values_of. rewrite filter_comm. generalize (filter (fun kv : string * string => fst kv =?s p) (msg_pairs c m)).
    induction l0 as [|[k w] l0 IH]; cbn; [reflexivity|]. unfold nonblank at 1. cbn. destruct (w =?s ""); cbn; now rewrite IH. }
  rewrite E, (msg_pairs_values _ _ _ _ N H). unfold qs_param. rewrite Hsp. cbn [map snd]. unfold ser_param. rewrite Hj, Hsp, Hw.
  cbn [snd str_val filter]. now rewrite (eqb_neq _ _ Hv).
Qed.
Lemma get_url E s args kw c i c' : s_http_method s = "GET" -> s_extra s = [] -> (forall c, s_authn s c = "") ->
  get_request_parameters E s args "" "" "" kw c = (Ok i, c') ->
  exists ep, construct s args kw c = (Ok (i_request i), c') /\ i_method i = "GET" /\ i_body i = None /\ i_headers i = [] /\
    match dget "endpoint" kw with Some v => Ok v | None => get_endpoint s c' end = Ok (VStr ep) /\
    u_base (urlsplit (i_url i)) = u_base (urlsplit ep) /\
    (u_query (urlsplit ep) = "" ->
      (NoDup (dkeys (i_request i)) -> forall p v, dget p (i_request i) = Some (VStr v) -> v <> "" -> form_has (u_query (urlsplit (i_url i))) p v) /\
      (NoDup (dkeys (i_request i)) -> forall p l ws, dget p (i_request i) = Some (VList l) -> mem_str p (c_sp (s_cls s)) = true ->
         mem_str p (c_json (s_cls s)) = false -> all_strs l = Some ws -> join " " ws <> "" -> form_has (u_query (urlsplit (i_url i))) p (join " " ws)) /\
      (forall p, dget p (i_request i) = None -> form_lacks (u_query (urlsplit (i_url i))) p)).
Proof.
  intros Hm He Ha H. apply grp_inv in H. cbv zeta in H. cbn [String.eqb eqs] in H. rewrite Hm, Ha in H.
  destruct H as (req0 & c1 & h & req1 & ep & H1 & H2 & H3 & H4 & H5 & H6 & H7). simpl in H7.
  unfold get_headers in H2. cbn [String.eqb eqs] in H2. unfold bind, asks, ret in H2. rewrite He, Ha in H2.
  cbn [get_authn_header String.eqb eqs run_headers fst snd] in H2. unfold ret in H2. injection H2 as <- <- <-.
  destruct H7 as [H7 H8]. exists ep. rewrite H5. split; [exact H1|]. split; [exact H4|]. split; [exact H7|]. split; [exact H8|].
  split; [exact H3|].
  change (sent_cls s "" req0) with {| c_sp := c_sp (s_cls s); c_json := c_json (s_cls s); c_default := c_default (s_cls s);
     c_req := c_req (s_cls s); c_par := c_par (s_cls s) |} in H6.
  set (cls := {| c_sp := c_sp (s_cls s); c_json := _; c_default := _; c_req := _; c_par := _ |}) in *.
  destruct req0 as [|x l].
  - cbn in H6. injection H6 as ->. split; [reflexivity|]. intros Hq. rewrite Hq. split; [discriminate|]. split; [discriminate|]. reflexivity.
  - assert (NE : x :: l <> []) by easy.
    destruct (http_url_get _ _ _ "GET" _ eq_refl NE H6) as (_ & B1 & _ & B3). split; [exact B1|]. intros Hq.
    rewrite (with_query_none _ _ Hq) in B3. rewrite B3. split; [|split].
    + intros N p v Hp Hv. now apply encoded_param.
    + intros N p l0 ws Hp Hsp Hj Hw Hne. now apply (encoded_list cls _ p l0).
    + intros p Hp. now apply encoded_absent.
Qed.

Lemma authz_args_spec W c reqs args : authz_request_args W c reqs = Ok args ->
  NoDup (dkeys args) /\
  (forall p v, dget p (rev reqs) = Some v -> dget p args = Some v) /\
  (~ In "nonce" (dkeys reqs) -> ~ In "nonce" (dkeys (config_request_args c)) -> dget "nonce" args = Some (VStr (e_nonce W))) /\
  (~ In "scope" (dkeys reqs) -> ~ In "scope" (dkeys (config_request_args c)) -> dget "scope" args = dget "scope" (behaviour c)) /\
  (~ In "response_type" (dkeys reqs) -> ~ In "response_type" (dkeys (config_request_args c)) ->
     exists v, response_type_of c reqs = Ok v /\ dget "response_type" args = Some v) /\
  (forall p, In p ["redirect_uri"; "scope"; "response_type"; "nonce"] -> exists v, dget p args = Some v).
Proof.
  unfold authz_request_args. intros H.
  destruct (response_type_of c reqs) as [rt|] eqn:E1; [|discriminate]. cbn [rbind] in H.
  destruct (pick_redirect_uri c (Some reqs) (Some rt)) as [ru|] eqn:E2; [|discriminate]. cbn [rbind] in H.
  unfold dict_get in H. destruct (dget "scope" (behaviour c)) as [sc|] eqn:E3; [|discriminate]. cbn [rbind] in H. injection H as <-.
  assert (RV : forall (d : dict val) p, ~ In p (dkeys d) -> dget p (rev d) = None).
  { intros d p Hp. apply dget_None_In. intros C. apply Hp. unfold dkeys in *. rewrite map_rev in C. now apply in_rev in C. }
  split; [|split; [|split; [|split; [|split]]]].
  - do 2 apply NoDup_dupdate. cbn. repeat (constructor; [cbn; intuition discriminate|]). constructor.
  - intros p v Hp. now rewrite dget_dupdate, Hp.
  - intros A B. rewrite !dget_dupdate, (RV _ _ A), (RV _ _ B). reflexivity.
  - intros A B. rewrite !dget_dupdate, (RV _ _ A), (RV _ _ B). reflexivity.
  - intros A B. exists rt. split; [reflexivity|]. rewrite !dget_dupdate, (RV _ _ A), (RV _ _ B). reflexivity.
  - intros p Hp. rewrite !dget_dupdate. destruct (dget p (rev reqs)); [eauto|]. destruct (dget p (rev (config_request_args c))); [eauto|].
    cbn in Hp. intuition (subst; cbn; eauto).
Qed.

(** everything an authorization request is and leaves behind *)
Lemma init_spec_id K W cl reqs beh c u st c' : key_family K -> K (e_state W) ->
  plain_conf (conf_of cl "authorization") -> (forall m v, e_hash W m v <> "") ->
  init_authorization W cl reqs beh c = (Ok (u, st), c') ->
  st = e_state W /\ exists args req ep,
    (dget "client_id" args = None -> client_id c <> "" -> dget "client_id" req = Some (VStr (client_id c))) /\
    authz_request_args W c reqs = Ok args /\
    dget "authorization_endpoint" (provider_info c) = Some (VStr ep) /\ u_base (urlsplit u) = u_base (urlsplit ep) /\
    NoDup (dkeys req) /\ dget "state" req = Some (VStr st) /\
    (forall cc, get_item (sdb c') cc "auth_request" st = msg_new cc (msg_to_dict cAuthzRequest req)) /\
    get_state_by_nonce (sdb c') (e_nonce W) = Ok st /\
    (issuer c <> "" -> get_iss (sdb c') st = Ok (VStr (issuer c))) /\
    (forall v, dget "nonce" args = Some v -> skipped v = false -> dget "nonce" req = Some v) /\
    (forall sc rt w, dget "scope" req = Some (VList sc) -> In (VStr "openid") sc -> dget "response_type" req = Some (VList (VStr w :: rt)) ->
       contains "id_token" w || contains "code" w = true ->
       exists n, dget "nonce" req = Some (VStr n) /\ get_state_by_nonce (sdb c') n = Ok st) /\
    (forall v, dget "response_type" args = Some v -> skipped v = false -> dget "response_type" req = shown cAuthzRequest "response_type" v) /\
    (forall l, dget "scope" args = Some (VList l) -> exists l', dget "scope" req = Some (VList l') /\ In (VStr "openid") l' /\ incl l l' /\ incl l' (VStr "openid" :: l)) /\
    (forall v, dget "redirect_uri" args = Some v -> skipped v = false -> dget "redirect_uri" req = Some v) /\
    (forall k, K k -> k <> st -> dget k (sdb c') = dget k (sdb c)) /\
    (forall x v, In x kinds -> (x = "nonce" -> v <> e_nonce W /\ dget "nonce" req <> Some (VStr v)) ->
       get_state_by_x (sdb c') v x = get_state_by_x (sdb c) v x) /\
    c' = set_db (sdb c') c /\
    (cl_pkce cl = true -> pkce_bound W c req (sdb c') st) /\
    (no_request_object beh -> u_query (urlsplit ep) = "" ->
       (forall p v, dget p req = Some (VStr v) -> v <> "" -> form_has (u_query (urlsplit u)) p v) /\
       (forall l ws, dget "scope" req = Some (VList l) -> all_strs l = Some ws -> join " " ws <> "" -> form_has (u_query (urlsplit u)) "scope" (join " " ws)) /\
       (forall p, dget p req = None -> form_lacks (u_query (urlsplit u)) p)).
Proof.
  intros (K1 & K2 & K3 & K4) Hk PC HH H. unfold init_authorization in H.
  apply bind_ok in H. destruct H as (args & c1 & E1 & H). injection E1 as E1 <-.
  apply bind_ok in H. destruct H as (iss & c1 & E2 & H). injection E2 as <- <-.
  apply bind_ok in H. destruct H as (s0 & c1 & E2 & H). unfold on_db in E2.
  destruct (create_state (e_state W) (issuer c) "" (sdb c)) as [q d] eqn:Ec. injection E2 as -> <-.
  destruct (create_state_effect _ _ _ _ _ _ Ec) as (C1 & C2 & C3). cbn in C1. subst s0.
  apply bind_ok in H. destruct H as ([] & c2 & E3 & H). unfold on_db in E3. cbn [sdb set_db] in E3.
  destruct (store_nonce2state (e_nonce W) (e_state W) d) as [q d2] eqn:En. injection E3 as -> <-.
  destruct (store_x_effect _ _ _ _ _ _ in_nonce En) as [D1 D2].
  apply bind_ok in H. destruct H as (i & c3 & E4 & H). injection H as <- <- <-.
  destruct (authz_args_spec _ _ _ _ E1) as (A1 & A2 & _).
  assert (PS : authz_svc W cl = authz_svc W cl) by reflexivity. clear PS.
  fold (kwb beh) in E4.
  destruct (authz_fields W cl) as (_ & _ & _ & AF4 & _ & AF6 & AF7 & AF8 & AF9 & AF10).
  destruct (get_url _ _ _ _ _ _ _ AF6 AF7 AF8 E4) as (ep & F1 & F2 & F3 & F4 & F5 & F6 & F7).
  assert (KE : dget "endpoint" (kwb beh) = None) by (destruct beh; reflexivity). rewrite KE in F5.
  assert (Nst : forall n, e_state W <> idx "nonce" n) by (intros n; apply K2; [assumption|apply in_nonce]).
  assert (Nrf : e_state W <> ref_key (e_state W)) by now apply K3.
  assert (NA : NoDup (dkeys (dset "state" (VStr (e_state W)) args))) by now apply NoDup_dset.
  destruct (authz_construct W cl _ beh _ _ _ (e_state W) PC NA (dget_dset_eq _ _ _) (K1 _ Hk) Nst Nrf HH F1)
    as (req & G0 & G1 & G2 & G3 & G4 & G5 & G6 & G7 & G8 & G9 & G10 & G11 & G12 & G13 & G14 & G15).
  split; [reflexivity|]. exists args, req, ep. split; [intros Hn Hc; apply G15; [now rewrite dget_dset_neq by discriminate|exact Hc]|]. split; [exact E1|].
  split. { unfold get_endpoint in F5. rewrite AF9, AF10 in F5. cbn [String.eqb eqs] in F5.
    unfold dict_get in F5. rewrite G2 in F5. cbn [provider_info set_db] in F5.
    destruct (dget "authorization_endpoint" (provider_info c)); congruence. }
  split; [exact F6|]. split; [exact G1|].
  assert (ST : dget "state" req = Some (VStr (e_state W))).
  { apply G3; [cbn; intuition discriminate|reflexivity|apply dget_dset_eq|]. pose proof (K1 _ Hk). destruct (e_state W); [easy|reflexivity]. }
  split; [exact ST|]. split; [exact G7|].
  assert (BN : forall n, dget (idx "nonce" n) (sdb c3) = Some (e_state W) -> get_state_by_nonce (sdb c3) n = Ok (e_state W)).
  { intros n Hn. apply by_x_bound; [apply in_nonce|now apply K1|assumption]. }
  split. { apply BN, G10. exact D1. }
  split; [exact G8|].
  split. { intros v Hv Hs. apply G3; [cbn; intuition discriminate|reflexivity| |assumption]. now rewrite dget_dset_neq by discriminate. }
  split. { intros sc rt w B1 B2 B3 B4. destruct (G11 sc rt w B1 B2 B3 B4) as (n & X & Y). eauto. }
  split. { intros v Hv. apply G5. now rewrite dget_dset_neq by discriminate. }
  split. { intros l Hl. apply G6. now rewrite dget_dset_neq by discriminate. }
  split. { intros v Hv. apply G4. now rewrite dget_dset_neq by discriminate. }
  split. { intros k Hk' Hne. rewrite G9; [|assumption|now apply K3|].
    - cbn [sdb set_db]. rewrite D2; [|now apply K2; [|apply in_nonce]|now apply K3]. now apply C2.
    - intros n _. apply K2; [assumption|apply in_nonce]. }
  split. { intros x v Hx Hv. apply by_x_get; [assumption|]. assert (XS : idx x v <> e_state W) by (apply not_eq_sym; now apply K2).
    rewrite G9; [|assumption|now apply idx_ref|].
    - cbn [sdb set_db]. rewrite D2; [now apply C2| |now apply idx_ref]. intros C. apply idx_inj in C; [|assumption|apply in_nonce].
      destruct C as [-> ->]. now destruct (Hv eq_refl).
    - intros n Hn C. apply idx_inj in C; [|assumption|apply in_nonce]. destruct C as [-> ->]. now destruct (Hv eq_refl). }
  split. { rewrite G2. reflexivity. }
  split. { exact G14. }
  intros NRO Hq. rewrite <- (G0 NRO) in *. destruct (F7 Hq) as (L1 & L2 & L3). split; [now apply L1|]. split; [|exact L3].
  intros l ws Hl Hw Hne. apply (L2 G1 "scope" l); rewrite ?AF4; auto.
Qed.
Lemma init_spec K W cl reqs beh c u st c' : key_family K -> K (e_state W) ->
  plain_conf (conf_of cl "authorization") -> (forall m v, e_hash W m v <> "") ->
  init_authorization W cl reqs beh c = (Ok (u, st), c') ->
  st = e_state W /\ exists args req ep,
    authz_request_args W c reqs = Ok args /\
    dget "authorization_endpoint" (provider_info c) = Some (VStr ep) /\ u_base (urlsplit u) = u_base (urlsplit ep) /\
    NoDup (dkeys req) /\ dget "state" req = Some (VStr st) /\
    (forall cc, get_item (sdb c') cc "auth_request" st = msg_new cc (msg_to_dict cAuthzRequest req)) /\
    get_state_by_nonce (sdb c') (e_nonce W) = Ok st /\
    (issuer c <> "" -> get_iss (sdb c') st = Ok (VStr (issuer c))) /\
    (forall v, dget "nonce" args = Some v -> skipped v = false -> dget "nonce" req = Some v) /\
    (forall sc rt w, dget "scope" req = Some (VList sc) -> In (VStr "openid") sc -> dget "response_type" req = Some (VList (VStr w :: rt)) ->
       contains "id_token" w || contains "code" w = true ->
       exists n, dget "nonce" req = Some (VStr n) /\ get_state_by_nonce (sdb c') n = Ok st) /\
    (forall v, dget "response_type" args = Some v -> skipped v = false -> dget "response_type" req = shown cAuthzRequest "response_type" v) /\
    (forall l, dget "scope" args = Some (VList l) -> exists l', dget "scope" req = Some (VList l') /\ In (VStr "openid") l' /\ incl l l' /\ incl l' (VStr "openid" :: l)) /\
    (forall v, dget "redirect_uri" args = Some v -> skipped v = false -> dget "redirect_uri" req = Some v) /\
    (forall k, K k -> k <> st -> dget k (sdb c') = dget k (sdb c)) /\
    (forall x v, In x kinds -> (x = "nonce" -> v <> e_nonce W /\ dget "nonce" req <> Some (VStr v)) ->
       get_state_by_x (sdb c') v x = get_state_by_x (sdb c) v x) /\
    c' = set_db (sdb c') c /\
    (cl_pkce cl = true -> pkce_bound W c req (sdb c') st) /\
    (no_request_object beh -> u_query (urlsplit ep) = "" ->
       (forall p v, dget p req = Some (VStr v) -> v <> "" -> form_has (u_query (urlsplit u)) p v) /\
       (forall l ws, dget "scope" req = Some (VList l) -> all_strs l = Some ws -> join " " ws <> "" -> form_has (u_query (urlsplit u)) "scope" (join " " ws)) /\
       (forall p, dget p req = None -> form_lacks (u_query (urlsplit u)) p)).
Proof.
  intros F Hk PC HH H. destruct (init_spec_id K W cl reqs beh c u st c' F Hk PC HH H) as (E & args & req & ep & _ & R).
  split; [exact E|]. exists args, req, ep. exact R.
Qed.
