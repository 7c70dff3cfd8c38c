(** Lemmas about M_Token.v *)
From Verif Require Import Base BaseP Json JsonP Msg M_State S_State P_State M_Ctx M_Codec M_Authz M_ClientAuth
  M_Service M_Token S_Service S_Token P_Ctx P_Codec P_ClientAuth P_Service P_Wire.

(** ** histories *)
Lemma item_step K d o k t cc : key_family K -> op_ok K o -> K k -> ~ overwrites o k t ->
  (exists s, get_state d k = Ok s) ->
  get_item (snd (cstep d o)) cc t k = get_item d cc t k /\ (exists s, get_state (snd (cstep d o)) k = Ok s).
Proof.
  intros HK Ho Hk Hn Hs.
  assert (ISO : forall k0, k0 = (match o with Create r _ key => created_key r key | Store _ _ _ k => k | Bind _ _ k => k | Remove k => k end) ->
     (k <> k0 \/ exists x v, o = Bind x v k0) ->
     get_item (snd (cstep d o)) cc t k = get_item d cc t k /\ (exists s, get_state (snd (cstep d o)) k = Ok s)).
  { intros k0 H1 H2. pose proof (sessions_isolated K d o k0 k HK Ho Hk H1 H2) as G.
    unfold get_item. rewrite G. auto. }
  destruct o as [rnd iss key|c m t' k'|x v k'|k']; cbn [overwrites] in Hn.
  - eapply ISO; [reflexivity|]. left. congruence.
  - destruct (String.eqb_spec k' k) as [->|]; [|eapply ISO; [reflexivity|left; congruence]].
    cbn [cstep]. destruct Hs as [s Hs]. destruct (store_item (IMsg c m) t' k d) as [r d'] eqn:E. cbn [snd].
    pose proof (store_item_effect _ _ _ _ _ _ _ E) as F. destruct r as [[]|e].
    + destruct F as (F1 & F2 & _). split; [apply F2; [intros ->; tauto|eauto]|].
      destruct (store_item_spec d k t' c m s) as [G1 G2]; [unfold old_state; now rewrite Hs|].
      rewrite G1 in E. injection E as <-. eauto.
    + subst. eauto.
  - eapply ISO; [reflexivity|]. right. eauto.
  - eapply ISO; [reflexivity|]. left. congruence.
Qed.
Lemma item_stable K ops cc k t : key_family K -> Forall (op_ok K) ops -> K k ->
  (forall o, In o ops -> ~ overwrites o k t) -> forall d, (exists s, get_state d k = Ok s) ->
  get_item (snd (crun d ops)) cc t k = get_item d cc t k /\ (exists s, get_state (snd (crun d ops)) k = Ok s).
Proof.
  intros HK Ho Hk. induction Ho as [|o ops Ho Hos IH]; intros Hn d Hs; [auto|].
  cbn [crun]. destruct (cstep d o) as [x d1] eqn:E. destruct (crun d1 ops) as [xs d2] eqn:E2. cbn [snd].
  destruct (item_step K d o k t cc HK Ho Hk (Hn o (or_introl eq_refl)) Hs) as [G1 G2]. rewrite E in G1, G2. cbn [snd] in *.
  destruct (IH (fun o' H => Hn o' (or_intror H)) d1 G2) as [G3 G4]. rewrite E2 in G3, G4. cbn [snd] in *. split; [congruence|assumption].
Qed.

(** ** post/pre methods *)
Definition pure_pre (m : pre_method) := forall a p k, read_only (m a p k).
Definition pure_post (m : post_method) := forall r k, read_only (m r k).

(** ** the token request *)
Lemma token_pre_spec ps args post kw c a1 post1 c1 : token_pre ps args post kw c = (Ok (a1, post1), c1) ->
  NoDup (dkeys args) ->
  c1 = c /\ post1 = post /\ NoDup (dkeys a1) /\ (forall p v, dget p args = Some v -> dget p a1 = Some v).
Proof.
  unfold token_pre. intros H N. injection H as H <-. unfold rbind in H.
  destruct (get_state_parameter args kw) as [st|]; [|discriminate]. destruct (key_arg st) as [k|]; [|discriminate].
  destruct (extend_request_args (sdb c) [] cOAuth2AuthzRequest "auth_request" k ps false) as [a|] eqn:E1; [|discriminate].
  destruct (extend_request_args (sdb c) a cAuthzResponse "auth_response" k ps false) as [b|] eqn:E2; [|discriminate].
  injection H as <- <-. split; [reflexivity|]. split; [reflexivity|].
  apply extend_NoDup in E1; [|constructor]. apply extend_NoDup in E2; [|assumption]. split.
  - apply NoDup_dupdate. now apply NoDup_dsetdefault.
  - intros p v H. rewrite dget_dupdate_NoDup by assumption. now rewrite H.
Qed.

Lemma shown_plain c k v : mem_str k (c_json c) = false -> mem_str k (c_sp c) = false -> shown c k v = Some v.
Proof. unfold shown. now intros -> ->. Qed.

(** what the token request (with or without PKCE) contains *)
Definition is_token_service (pkce : bool) (s : service) : Prop :=
  s_pre s = token_pre (c_par cTokenRequest) :: (if pkce then [carry_state] else []) /\
  s_post s = (if pkce then [add_code_verifier] else []) /\ s_gather s = no_gather /\ s_cls s = cTokenRequest.
Lemma token_service_plain vrf now conf : is_token_service false (oidc_token_service vrf now conf).
Proof. repeat split. Qed.
Lemma token_service_pkce vrf now conf : is_token_service true (with_pkce (oidc_token_service vrf now conf)).
Proof. repeat split. Qed.

Lemma token_construct pkce s args kw c req c' : is_token_service pkce s -> NoDup (dkeys args) ->
  construct s args kw c = (Ok req, c') ->
  c' = c /\ NoDup (dkeys req) /\
  (forall p v, p <> "code_verifier" -> dget p args = Some v -> skipped v = false -> dget p req = Some v) /\
  (pkce = true -> forall k, dget "state" args = Some (VStr k) -> k <> "" -> exists it v,
     get_item (sdb c) cMessage "pkce" k = Ok it /\ dget "code_verifier" it = Some v /\ dget "code_verifier" req = Some v).
Proof.
  intros (H1 & H2 & H3 & H4) N H. apply construct_inv in H.
  destruct H as (a1 & post & c1 & out & req0 & E1 & E2 & E3 & E4).
  assert (PRE : c1 = c /\ NoDup (dkeys a1) /\ (forall p v, dget p args = Some v -> dget p a1 = Some v)).
  { unfold do_pre_construct in E1. rewrite H1 in E1. cbn [run_pre] in E1. unfold bind, ret in E1.
    match type of E1 with context [token_pre ?x ?y ?z ?w ?u] => destruct (token_pre x y z w u) as [[[b pp]|] c2] eqn:E5 end; [|discriminate].
    destruct (token_pre_spec _ _ _ _ _ _ _ _ E5 N) as (-> & -> & N1 & G1). cbn [fst snd] in E1.
    destruct pkce; cbn [run_pre] in E1; unfold bind, ret, carry_state, rbind in E1.
    - match type of E1 with context [get_state_parameter ?x ?y] => destruct (get_state_parameter x y) end; [|discriminate].
      cbn [fst snd] in E1. injection E1 as <- <- <-. auto.
    - injection E1 as <- <- <-. auto. }
  clear E1. destruct PRE as (-> & N1 & G1).
  assert (N2 : NoDup (dkeys (state_default s kw a1))).
  { unfold state_default. destruct (dget "state" kw); [|assumption]. destruct (mem_str _ _); [|assumption]. now apply NoDup_dsetdefault. }
  destruct (gather_any _ _ _ _ H3 E2) as [N3 G3]. rewrite H4 in E3.
  assert (NR : NoDup (dkeys req0)) by (eapply msg_new_NoDup; [|exact E3]; repeat constructor; simpl; tauto).
  assert (G4 : forall p v, dget p args = Some v -> skipped v = false -> dget p req0 = Some v).
  { intros p v Hp Hs. assert (Hp' : dget p (state_default s kw a1) = Some v).
    { unfold state_default. destruct (dget "state" kw); [|now apply G1].
      destruct (mem_str _ _); [|now apply G1]. rewrite dget_dsetdefault. now rewrite (G1 _ _ Hp). }
    rewrite (msg_new_get _ _ _ (N3 N2) E3). rewrite (G3 _ _ Hp'). rewrite Hs. now apply shown_plain. }
  unfold do_post_construct in E4. rewrite H2 in E4. destruct pkce; cbn [run_post] in E4; unfold bind, ret in E4.
  - match type of E4 with context [add_code_verifier ?x ?y ?z] => destruct (add_code_verifier x y z) as [[q|] c2] eqn:E6 end; [|discriminate].
    injection E4 as <- <-. unfold add_code_verifier in E6. injection E6 as E6 <-. split; [reflexivity|].
    unfold rbind in E6. dmH E6; [|discriminate]. rename Heqr into Est.
    destruct (key_arg a) as [k|] eqn:Ek; [|discriminate]. destruct (get_item (sdb c) cMessage "pkce" k) as [it|] eqn:Ei; [|discriminate].
    unfold dict_get in E6. destruct (dget "code_verifier" it) as [v|] eqn:Ev; [|discriminate]. injection E6 as <-.
    split; [now apply NoDup_dset|]. split.
    + intros p w Hne Hp Hs. rewrite dget_dset_neq by congruence. now apply G4.
    + intros _ k' Hk' Hne. exists it, v.
      assert (Hst : dget "state" req0 = Some (VStr k')) by (apply G4; [assumption|]; destruct k'; [easy|reflexivity]).
      rewrite Hst in Est. injection Est as <-. cbn in Ek. injection Ek as <-. repeat split; auto. apply dget_dset_eq.
  - injection E4 as <- <-. split; [reflexivity|]. split; [assumption|]. split; [auto|discriminate].
Qed.

(** the update of the service context, oidc/access_token.py *)
Lemma expires_spec now resp r : add_expires_at now resp = Ok r ->
  match dget "expires_in" resp with
  | None => r = resp
  | Some v => exists n, to_int v = Ok n /\ r = dset "__expires_at" (VInt (now + n)) resp
  end.
Proof.
  unfold add_expires_at. destruct (dget "expires_in" resp) as [v|]; [|now intros [= ->]].
  destruct (to_int v) as [n|]; [|discriminate]. intros [= <-]. eauto.
Qed.
Lemma store_token_effect now resp key c r c' : store_token_response now resp key c = (r, c') ->
  match r with
  | Err _ => c' = c
  | Ok m => add_expires_at now resp = Ok m /\ c' = set_db (sdb c') c /\
      (forall cc, get_item (sdb c') cc "token_response" key = msg_new cc (msg_to_dict cTokenResponse m)) /\
      (forall cc t, t <> "token_response" -> (exists s, get_state (sdb c) key = Ok s) ->
         get_item (sdb c') cc t key = get_item (sdb c) cc t key) /\
      (forall i, get_iss (sdb c) key = Ok i -> get_iss (sdb c') key = Ok i) /\
      (forall q, q <> key -> dget q (sdb c') = dget q (sdb c))
  end.
Proof.
  unfold store_token_response. destruct (add_expires_at now resp) as [m|e] eqn:E.
  - unfold bind, on_db, ret. destruct (store_item _ _ _ _) as [[[]|e] d] eqn:Es; intros [= <- <-];
      pose proof (store_item_effect _ _ _ _ _ _ _ Es) as F.
    + destruct F as (F1 & F2 & F3 & F4). cbn [sdb set_db]. repeat split; auto.
      intros i. apply F3. discriminate.
    + cbn in F. subst d. apply set_db_same.
  - unfold raise. now intros [= <- <-].
Qed.

Lemma by_x_result d v x r : get_state_by_x d v x = r -> In x kinds -> (exists k, r = Ok k) \/ exists e, r = Err (KeyError e).
Proof.
  unfold get_state_by_x. intros H Hx. rewrite index_key_ok in H by assumption. repeat dmH H; subst; eauto.
Qed.
Lemma in_nonce : In "nonce" kinds. Proof. simpl; auto. Qed.
Lemma in_sub : In "subject id" kinds. Proof. simpl; auto 6. Qed.
Lemma in_sid : In "session id" kinds. Proof. simpl; auto 6. Qed.
Lemma in_logout : In "logout state" kinds. Proof. simpl; auto 6. Qed.

(** C11, token endpoint: rejection *)
Lemma token_update_rejects now resp key c idt :
  dget (verified "id_token") resp = Some (VDict idt) ->
  (forall n, dget "nonce" idt = Some (VStr n) -> get_state_by_nonce (sdb c) n <> Ok key) ->
  oidc_token_update now resp key c =
  (Err (match dget "nonce" idt with
        | Some (VStr n) => match get_state_by_nonce (sdb c) n with Ok _ => ParameterError | Err _ => ValueError end
        | _ => ValueError
        end), c).
Proof.
  intros H Hn. unfold oidc_token_update, bind. rewrite H. unfold get_state_by_nonce in *.
  destruct (dget "nonce" idt) as [[| | |n| |]|]; try reflexivity. specialize (Hn n eq_refl).
  destruct (get_state_by_x (sdb c) n "nonce") as [k|e] eqn:E.
  - rewrite eqb_neq by congruence. reflexivity.
  - destruct (by_x_result _ _ _ _ E in_nonce) as [[k ?]|[e' He]]; [discriminate|]. now injection He as ->.
Qed.
(** and acceptance *)
Lemma by_x_get d d' x v : In x kinds -> dget (idx x v) d' = dget (idx x v) d -> get_state_by_x d' v x = get_state_by_x d v x.
Proof. intros Hx H. apply by_x_frame. rewrite index_key_ok by assumption. now intros ik [= <-]. Qed.
Lemma token_update_accepts K now resp key c m c' : key_family K -> K key -> oidc_token_update now resp key c = (Ok m, c') ->
  add_expires_at now resp = Ok m /\ c' = set_db (sdb c') c /\
  (forall cc, get_item (sdb c') cc "token_response" key = msg_new cc (msg_to_dict cTokenResponse m)) /\
  (forall idt, dget (verified "id_token") resp = Some (VDict idt) ->
     exists n sub, dget "nonce" idt = Some (VStr n) /\ get_state_by_nonce (sdb c) n = Ok key /\
       dget "sub" idt = Some (VStr sub) /\ get_state_by_sub (sdb c') sub = Ok key) /\
  (forall cc t, t <> "token_response" -> (exists s, get_state (sdb c) key = Ok s) ->
         get_item (sdb c') cc t key = get_item (sdb c) cc t key) /\
  (forall k, K k -> k <> key -> dget k (sdb c') = dget k (sdb c)).
Proof.
  intros (Kne & Kidx & Kref & _) Hk H. unfold oidc_token_update in H. unfold bind at 1 in H.
  match type of H with context [match ?x with (_, _) => _ end] => destruct x as [[[]|] c1] eqn:E end; [|discriminate].
  pose proof (store_token_effect _ _ _ _ _ _ H) as F. cbn in F. destruct F as (F1 & F2 & F3 & F4 & _ & F5).
  assert (A : c1 = set_db (sdb c1) c /\ (forall k, K k -> dget k (sdb c1) = dget k (sdb c)) /\
     (forall idt, dget (verified "id_token") resp = Some (VDict idt) ->
     exists n sub, dget "nonce" idt = Some (VStr n) /\ get_state_by_nonce (sdb c) n = Ok key /\
       dget "sub" idt = Some (VStr sub) /\ dget (idx "subject id" sub) (sdb c1) = Some key)).
  { destruct (dget (verified "id_token") resp) as [[| | | | |idt]|] eqn:Ei; try discriminate.
    - destruct (dget "nonce" idt) as [[| | |n| |]|] eqn:En; try discriminate.
      destruct (get_state_by_nonce (sdb c) n) as [k|[]] eqn:Eg; try discriminate.
      destruct (String.eqb_spec k key); [subst k|discriminate].
      destruct (dget "sub" idt) as [[| | |sub| |]|] eqn:Es; try discriminate.
      unfold on_db in E. destruct (store_sub2state sub key (sdb c)) as [r d] eqn:Est. injection E as -> <-.
      destruct (store_x_effect _ _ _ _ _ _ in_sub Est) as [B1 B2]. split; [reflexivity|]. split.
      + intros k Hk'. cbn [sdb set_db]. apply B2; [now apply Kidx; [|apply in_sub]|now apply Kref].
      + intros idt' [= <-]. exists n, sub. auto.
    - injection E as <-. split; [now rewrite set_db_same|]. split; [auto|discriminate]. }
  destruct A as (A1 & A2 & A3). split; [exact F1|]. split.
  { rewrite F2, A1. reflexivity. }
  split; [exact F3|]. split; [|split].
  - intros idt Hi. destruct (A3 idt Hi) as (n & sub & B1 & B2 & B3 & B4). exists n, sub. repeat split; auto.
    apply by_x_bound; [apply in_sub|now apply Kne|]. rewrite F5; [exact B4|]. apply not_eq_sym, Kidx; [assumption|apply in_sub].
  - intros cc t Ht [s Hs]. rewrite F4; [|assumption|exists s; rewrite <- Hs; apply get_state_frame; now apply A2].
    unfold get_item. now rewrite (get_state_frame (sdb c) (sdb c1) key (A2 key Hk)).
  - intros k Hk' Hne. rewrite F5 by assumption. now apply A2.
Qed.

(** ** refresh request *)
Lemma refresh_pre_spec ps args post kw c a1 post1 c1 k : refresh_pre ps args post kw c = (Ok (a1, post1), c1) ->
  dget "state" kw = Some (VStr k) -> NoDup (dkeys args) ->
  c1 = c /\ post1 = post /\ NoDup (dkeys a1) /\ (forall p v, dget p args = Some v -> dget p a1 = Some v) /\
  (forall p, dget p args = None -> mem_str p ps = true -> dget p a1 =
     match (match get_item (sdb c) cTokenResponse "refresh_token_response" k with Ok it => offer false it p | Err _ => None end) with
     | Some v => Some v
     | None => match get_item (sdb c) cTokenResponse "token_response" k with Ok it => offer false it p | Err _ => None end
     end).
Proof.
  unfold refresh_pre. intros H Hk N. injection H as H <-. unfold rbind, get_state_parameter in H. rewrite Hk in H. cbn [key_arg] in H.
  destruct (extend_request_args (sdb c) [] cTokenResponse "token_response" k ps false) as [a|] eqn:E1; [|discriminate].
  destruct (extend_request_args (sdb c) a cTokenResponse "refresh_token_response" k ps false) as [b|] eqn:E2; [|discriminate].
  injection H as <- <-. assert (N1 : NoDup (dkeys a)) by (eapply extend_NoDup; [|exact E1]; constructor).
  pose proof (extend_NoDup _ _ _ _ _ _ _ _ N1 E2) as N2.
  repeat (split; [reflexivity|]). split; [now apply NoDup_dupdate|]. split.
  - intros p v H. rewrite dget_dupdate_NoDup by assumption. now rewrite H.
  - intros p H Hp. rewrite dget_dupdate_NoDup by assumption. rewrite H.
    assert (X : forall args c0 t r, extend_request_args (sdb c) args c0 t k ps false = Ok r ->
       dget p r = match (match get_item (sdb c) c0 t k with Ok it => offer false it p | Err _ => None end) with
                  | Some v => Some v | None => dget p args end).
    { intros args0 c0 t r Hx. destruct (get_item (sdb c) c0 t k) as [it|e] eqn:Ei.
      - rewrite (extend_get _ _ _ _ _ _ _ _ _ Ei Hx). now rewrite Hp.
      - unfold extend_request_args in Hx. rewrite Ei in Hx. destruct e; try discriminate. now injection Hx as ->. }
    rewrite (X _ _ _ _ E2), (X _ _ _ _ E1).
    destruct (match get_item (sdb c) cTokenResponse "refresh_token_response" k with Ok it => offer false it p | Err _ => None end); [reflexivity|].
    destruct (match get_item (sdb c) cTokenResponse "token_response" k with Ok it => offer false it p | Err _ => None end); reflexivity.
Qed.

(** ** what is sent *)
Lemma msg_to_urlencoded_inv c m t : msg_to_urlencoded c m = Ok t -> t = urlencode (msg_pairs c m).
Proof. unfold msg_to_urlencoded. destruct (missing_required c m); [discriminate|]. now intros [= <-]. Qed.
Lemma post_form E s args au kw c i c' : s_http_method s = "POST" -> s_req_type s = "urlencoded" -> s_extra s = [] ->
  get_request_parameters E s args "" "" au kw c = (Ok i, c') ->
  exists req0 txt, construct s args kw c = (Ok req0, c') /\ i_method i = "POST" /\ i_body i = Some (BText txt) /\
    (NoDup (dkeys req0) -> NoDup (dkeys (i_request i))) /\
    (forall p, ~ In p authn_params -> dget p (i_request i) = dget p req0) /\
    (NoDup (dkeys (i_request i)) -> forall p v, dget p (i_request i) = Some (VStr v) -> v <> "" -> form_has txt p v) /\
    (forall p, dget p (i_request i) = None -> form_lacks txt p) /\
    match dget "endpoint" kw with Some v => Ok v | None => get_endpoint s c' end = Ok (VStr (i_url i)).
Proof.
  intros Hm Ht He H. apply grp_inv in H. cbv zeta in H. cbn [String.eqb eqs] in H. rewrite Hm, Ht in H.
  destruct H as (req0 & c1 & h & req1 & ep & H1 & H2 & H3 & H4 & H5 & H6 & H7). simpl in H7.
  destruct H7 as (b & H7 & H8 & _).
  change (body_content_type "urlencoded") with URL_ENCODED in H7. unfold get_http_body in H7.
  change (contains URL_ENCODED URL_ENCODED) with true in H7. cbv iota in H7. unfold rbind in H7.
  match type of H7 with context [msg_to_urlencoded ?a ?b] => destruct (msg_to_urlencoded a b) as [txt|] eqn:Et end; [|discriminate].
  injection H7 as <-. apply msg_to_urlencoded_inv in Et.
  rewrite http_url_other in H6 by reflexivity. injection H6 as ->.
  assert (FR : forall p, ~ In p authn_params -> c' = c1 /\ dget p req1 = dget p req0 /\ (NoDup (dkeys req0) -> NoDup (dkeys req1))).
  { intros p Hp. eapply get_headers_frame; eauto. }
  destruct (FR "zz") as (-> & _ & N); [cbn; intuition discriminate|].
  exists req0, txt. rewrite H5. repeat split; auto.
  - intros p Hp. now apply FR.
  - intros Nr p v Hp Hv. subst txt. now apply encoded_param.
  - intros p Hp. subst txt. now apply encoded_absent.
Qed.

Lemma service_request_http http1 http2 jwt s u m b rbt h st c : http1 u m b h = http2 u m b h ->
  service_request http1 jwt s u m b rbt h st c = service_request http2 jwt s u m b rbt h st c.
Proof. intros H. unfold service_request, bind, get_response. now rewrite H. Qed.
Lemma do_request_sends E jwt s rbt args au kw c (P : string -> string -> option body -> headers -> Prop) :
  (forall i c1, get_request_parameters E s args "" "" au kw c = (Ok i, c1) -> P (i_url i) (i_method i) (i_body i) (i_headers i)) ->
  only_sends (fun http => do_request E http jwt s rbt args au kw) c P.
Proof.
  intros H http1 http2 Hp. unfold do_request, bind. destruct (get_request_parameters E s args "" "" au kw c) as [[i|] c1]; [|reflexivity].
  apply service_request_http, Hp. eapply H. reflexivity.
Qed.
