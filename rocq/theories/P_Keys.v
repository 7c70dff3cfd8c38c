(** Proofs for C68. *)
From Verif Require Import Base BaseP Json JsonP Msg M_State M_Ctx M_Codec M_Authz M_ClientAuth M_Service M_Token M_Handler
  S_Service S_Provider M_Provider M_Registration M_Setup M_Keys S_Keys P_Ctx P_Service P_Provider P_Registration P_Setup T_Provider T_Registration.

Lemma in_keys_of o s j : In s (keys_of o j) <-> In (o, s) j.
Proof.
  unfold keys_of. rewrite in_map_iff. split.
  - intros ([o' s'] & E & I). apply filter_In in I. destruct I as [I T]. cbn in *. apply eqb_true_iff in T. now subst.
  - intros I. exists (o, s). split; [reflexivity|]. apply filter_In. split; [exact I|]. apply eqb_refl.
Qed.
Lemma keys_of_app o j1 j2 : keys_of o (j1 ++ j2) = keys_of o j1 ++ keys_of o j2.
Proof. unfold keys_of. rewrite filter_app. apply map_app. Qed.
Lemma is_owner_true o j : is_owner o j = true <-> exists s, In (o, s) j.
Proof.
  unfold is_owner. rewrite existsb_exists. split.
  - intros ([o' s] & I & T). cbn in T. apply eqb_true_iff in T. subst. eauto.
  - intros (s & I). exists (o, s). split; [exact I|]. apply eqb_refl.
Qed.
Lemma keys_of_other o id l : o <> id -> keys_of o (map (fun s => (id, s)) l) = [].
Proof.
  intros N. unfold keys_of. induction l as [|s l IH]; [reflexivity|]. cbn [map filter fst].
  rewrite (eqb_neq id o) by congruence. exact IH.
Qed.
Lemma keys_of_self id l : keys_of id (map (fun s => (id, s)) l) = l.
Proof.
  unfold keys_of. induction l as [|s l IH]; [reflexivity|]. cbn [map filter fst]. rewrite eqb_refl. cbn. now rewrite IH.
Qed.

(** ** listed keys *)
Lemma load_specs_in iss specs : forall j r j', load_key_specs iss specs j = (r, j') -> forall o s,
  (In (o, s) j' -> In (o, s) j \/ exists typ spec name v, In (typ, VDict spec) specs /\ In (name, v) spec /\
      ((typ = "url" /\ o = name /\ s = SUrl v) \/
       (typ = "file" /\ o = iss /\ ((name = "jwks" /\ s = SFile v) \/ (name = "rsa" /\ s = SPem v))))) /\
  (In (o, s) j -> In (o, s) j') /\
  (r = Ok tt -> (exists typ spec name v, In (typ, VDict spec) specs /\ In (name, v) spec /\
      ((typ = "url" /\ o = name /\ s = SUrl v) \/
       (typ = "file" /\ o = iss /\ ((name = "jwks" /\ s = SFile v) \/ (name = "rsa" /\ s = SPem v))))) -> In (o, s) j').
Proof.
  induction specs as [|[typ spec] r0 IH]; intros j r j' E o s.
  - cbn in E. injection E as <- <-. split; [auto|]. split; [auto|]. intros _ (? & ? & ? & ? & [] & _).
  - cbn [load_key_specs] in E.
    assert (Hurl : forall d, In (o, s) (map (fun kv => (fst kv, SUrl (snd kv))) d) <-> exists name v, In (name, v) d /\ o = name /\ s = SUrl v).
    { intros d. rewrite in_map_iff. split.
      - intros ([n v] & Q & I). injection Q as <- <-. eauto.
      - intros (n & v & I & -> & ->). exists (n, v). auto. }
    assert (Hfile : forall d, In (o, s) (flat_map (file_keys iss) d) <-> exists name v, In (name, v) d /\ o = iss /\ ((name = "jwks" /\ s = SFile v) \/ (name = "rsa" /\ s = SPem v))).
    { intros d. rewrite in_flat_map. split.
      - intros ([n v] & I & Q). unfold file_keys in Q. cbn [fst snd] in Q. destruct (n =?s "jwks") eqn:E1.
        + apply eqb_true_iff in E1. destruct Q as [Q|[]]. injection Q as <- <-. exists n, v. auto.
        + destruct (n =?s "rsa") eqn:E2; [|destruct Q]. apply eqb_true_iff in E2. destruct Q as [Q|[]]. injection Q as <- <-. exists n, v. auto.
      - intros (n & v & I & -> & [[-> ->]|[-> ->]]); eexists; (split; [exact I|]); now left. }
    destruct (typ =?s "url") eqn:E1.
    { apply eqb_true_iff in E1. subst typ. destruct spec as [| | | | |d];
        try (injection E as <- <-; split; [auto|]; split; [auto|]; discriminate).
      destruct (IH _ _ _ E o s) as (A & B & C). split; [|split].
      - intros I. apply A in I. destruct I as [I|(typ & sp & n & v & I1 & I2)]; [|right; exists typ, sp, n, v; split; [now right|exact I2]].
        apply in_app_iff in I. destruct I as [I|I]; [auto|]. apply Hurl in I. destruct I as (n & v & I & -> & ->).
        right. exists "url", d, n, v. split; [now left|]. auto.
      - intros I. apply B. apply in_app_iff. auto.
      - intros Hr (typ & sp & n & v & [I1|I1] & I2 & I3).
        + injection I1 as <- <-. apply B. apply in_app_iff. right. apply Hurl. exists n, v. destruct I3 as [(_ & -> & ->)|(K & _)]; [auto|discriminate].
        + apply C; [exact Hr|]. exists typ, sp, n, v. auto. }
    destruct (typ =?s "file") eqn:E2.
    { apply eqb_true_iff in E2. subst typ. destruct spec as [| | | | |d];
        try (injection E as <- <-; split; [auto|]; split; [auto|]; discriminate).
      destruct (IH _ _ _ E o s) as (A & B & C). split; [|split].
      - intros I. apply A in I. destruct I as [I|(typ & sp & n & v & I1 & I2)]; [|right; exists typ, sp, n, v; split; [now right|exact I2]].
        apply in_app_iff in I. destruct I as [I|I]; [auto|]. apply Hfile in I. destruct I as (n & v & I & K).
        right. exists "file", d, n, v. split; [now left|]. auto.
      - intros I. apply B. apply in_app_iff. auto.
      - intros Hr (typ & sp & n & v & [I1|I1] & I2 & I3).
        + injection I1 as <- <-. apply B. apply in_app_iff. right. apply Hfile. exists n, v. destruct I3 as [(K & _)|(_ & K)]; [discriminate|auto].
        + apply C; [exact Hr|]. exists typ, sp, n, v. auto. }
    injection E as <- <-. split; [auto|]. split; [auto|]. discriminate.
Qed.
Lemma load_configured_in iss pi j r j' : load_configured_keys iss pi j = (r, j') -> forall o s,
  (In (o, s) j' -> In (o, s) j \/ listed pi iss o s) /\ (In (o, s) j -> In (o, s) j') /\
  (r = Ok tt -> listed pi iss o s -> In (o, s) j').
Proof.
  unfold load_configured_keys. intros E o s. unfold listed.
  destruct (dget "keys" pi) as [v|] eqn:Ek.
  2:{ injection E as <- <-. split; [auto|]. split; [auto|]. intros _ (? & ? & ? & ? & ? & K & _). discriminate. }
  destruct v as [| | | | |specs]; try (injection E as <- <-; split; [auto|]; split; [auto|]; discriminate).
  destruct (load_specs_in _ _ _ _ _ E o s) as (A & B & C). split; [|split].
  - intros I. apply A in I. destruct I as [I|(typ & sp & n & w & I)]; [auto|]. right. exists specs, typ, sp, n, w. auto.
  - exact B.
  - intros Hr (sp & typ & spec & n & w & K & I). injection K as <-. apply C; [exact Hr|]. exists typ, spec, n, w. exact I.
Qed.

(** ** discovery *)
Lemma discovery_keys W p r p' : dynamic_discovery W p = (r, p') -> forall o s,
  (In (o, s) (p_keys p') -> In (o, s) (p_keys p) \/
     (o = issuer (p_ctx p') /\ publishes (provider_info (p_ctx p')) s /\ spelling (issuer (p_ctx p')) (target_issuer (p_ctx p)))) /\
  (In (o, s) (p_keys p) -> In (o, s) (p_keys p')).
Proof.
  unfold dynamic_discovery, target_issuer.
  set (c := match dget "srv_discovery_url" (config (p_ctx p)) with Some (VStr u) => set_issuer u (p_ctx p) | _ => p_ctx p end).
  assert (Hc : issuer c = match dget "srv_discovery_url" (config (p_ctx p)) with Some (VStr u) => u | _ => issuer (p_ctx p) end).
  { unfold c. destruct (dget "srv_discovery_url" (config (p_ctx p))) as [v|]; [destruct v|]; reflexivity. }
  clearbody c. rewrite <- Hc. clear Hc.
  intros E o s.
  assert (Z : forall c', p' = mkp c' (p_eps p) (p_keys p) -> (In (o, s) (p_keys p') -> In (o, s) (p_keys p) \/
     (o = issuer (p_ctx p') /\ publishes (provider_info (p_ctx p')) s /\ spelling (issuer (p_ctx p')) (issuer c))) /\
     (In (o, s) (p_keys p) -> In (o, s) (p_keys p'))).
  { intros c' ->. cbn [p_keys]. auto. }
  destruct (existsb (fun s => sep_name s =?s "provider_info") (p_eps p)); [|apply (Z c); congruence].
  destruct (get_response (e_http W) (e_jwt W) (provider_info_service (e_vrf W "provider_info") []) (discovery_url c) "GET" None "json" [] "" c)
    as [rr c1] eqn:Eg.
  assert (RO : reads_only (s_post_parse (provider_info_service (e_vrf W "provider_info") []))).
  { intros ? ? ? ? ? Y. unfold provider_info_service in Y. cbn [s_post_parse] in Y. unfold ret in Y. now injection Y as _ ->. }
  destruct (get_response_spec _ _ _ _ _ _ _ _ _ _ _ _ RO Eg) as [-> _]. clear RO Eg.
  assert (U : forall m, oidc_update_provider_info m (mkp c (p_eps p) (p_keys p)) = (r, p') ->
    (In (o, s) (p_keys p') -> In (o, s) (p_keys p) \/
     (o = issuer (p_ctx p') /\ publishes (provider_info (p_ctx p')) s /\ spelling (issuer (p_ctx p')) (issuer c))) /\
     (In (o, s) (p_keys p) -> In (o, s) (p_keys p'))).
  { intros m Hm. destruct (C27_issuer_and_keys_stay_with_configured_name _ _ _ _ Hm) as [N K]. cbn [p_ctx p_keys] in N, K.
    destruct K as [K|(k & K & Q)].
    - rewrite K. auto.
    - rewrite K. assert (PI : provider_info (p_ctx p') = m).
      { unfold oidc_update_provider_info, update_provider_info in Hm. cbn [p_ctx p_eps p_keys] in Hm.
        destruct (match dget "issuer" m with Some i => verify_issuer i c | None => Ok (issuer c) end) as [i|e].
        - cbn [p_ctx p_eps p_keys] in Hm. destruct (match_preferences m (set_provider_info m (set_issuer i c))) as [r2 c2] eqn:Em.
          pose proof (match_preferences_beh _ _ _ _ Em) as B. assert (Hp := f_equal snd Hm). cbn [snd] in Hp.
          rewrite <- Hp. cbn [p_ctx]. rewrite B. reflexivity.
        - exfalso. assert (Hp : p' = mkp c (p_eps p) (p_keys p)) by congruence. rewrite Hp in K. cbn [p_keys] in K.
          apply (f_equal (@length _)) in K. rewrite app_length in K. cbn in K. lia. }
      split.
      + intros I. apply in_app_iff in I. destruct I as [I|[I|[]]]; [auto|]. injection I as <- <-. right. split; [reflexivity|].
        split; [|exact N]. rewrite PI. unfold publishes. destruct Q as [(u & -> & Q)|(w & -> & Q1 & Q2)]; [left|right]; eauto.
      + intros I. apply in_app_iff. auto. }
  destruct rr as [x|e]; [|apply (Z c); congruence].
  destruct x as [m|t|h].
  - destruct (dhas "error" m); [apply (Z c); congruence|]. exact (U m E).
  - apply (Z c). congruence.
  - exact (U _ E).
Qed.
Lemma provider_info_keys W p r p' : do_provider_info W p = (r, p') -> forall o s,
  (In (o, s) (p_keys p') -> In (o, s) (p_keys p) \/
     (provider_info (p_ctx p) = [] /\ o = issuer (p_ctx p') /\ publishes (provider_info (p_ctx p')) s /\ spelling (issuer (p_ctx p')) (target_issuer (p_ctx p))) \/
     (provider_info (p_ctx p) <> [] /\ listed (provider_info (p_ctx p)) (issuer (p_ctx p)) o s)) /\
  (In (o, s) (p_keys p) -> In (o, s) (p_keys p')) /\
  ((exists v, r = Ok v) -> provider_info (p_ctx p) <> [] -> listed (provider_info (p_ctx p)) (issuer (p_ctx p)) o s -> In (o, s) (p_keys p')).
Proof.
  unfold do_provider_info. intros E o s. destruct (provider_info (p_ctx p)) as [|kv pi] eqn:Ep.
  - destruct (dynamic_discovery W p) as [r1 p1] eqn:Ed. destruct (discovery_keys _ _ _ _ Ed o s) as (A & B).
    assert (Hp : p' = p1) by (destruct r1; congruence). rewrite Hp. clear Hp. split; [|split; [exact B|now intros _ []]].
    intros I. apply A in I. destruct I as [I|(-> & I2 & I3)]; auto 6.
  - destruct (load_configured_keys (issuer (p_ctx p)) (kv :: pi) (p_keys p)) as [r1 j] eqn:El.
    destruct (load_configured_in _ _ _ _ _ El o s) as (A & B & C).
    assert (Hp : p' = mkp (p_ctx p) (set_all (kv :: pi) (p_eps p)) j) by congruence. rewrite Hp. cbn [p_keys]. split; [|split; [exact B|]].
    + intros I. apply A in I. destruct I as [I|I]; [auto|]. right. right. split; [discriminate|exact I].
    + intros Hr _ L. apply C; [|exact L]. destruct r1 as [[]|e]; [reflexivity|]. destruct Hr as [v Hr]. congruence.
Qed.

(** ** registration *)
Lemma own_also_in id j o s : In (o, s) (own_keys_also_as id j) <->
  In (o, s) j \/ (o = id /\ In ("", s) j /\ is_owner id j = false).
Proof.
  unfold own_keys_also_as. destruct (is_owner id j) eqn:E; [split; [auto|intros [I|(_ & _ & K)]; [exact I|discriminate]]|].
  rewrite in_app_iff, in_map_iff. split.
  - intros [I|(x & Q & I)]; [auto|]. injection Q as <- <-. apply in_keys_of in I. auto.
  - intros [I|(-> & I & _)]; [auto|]. right. exists s. split; [reflexivity|]. now apply in_keys_of.
Qed.
Lemma adopt_keys resp r resp' r' : adopt_registration resp r = (resp', r') ->
  r_keys r' = (if str_of (dget "client_id" resp) =?s "" then r_keys r
               else own_keys_also_as (str_of (dget "client_id" resp)) (r_keys r) ++
                    (if str_of (dget "client_secret" resp) =?s "" then []
                     else [("", SSecret (str_of (dget "client_secret" resp))); (str_of (dget "client_id" resp), SSecret (str_of (dget "client_secret" resp)))])) /\
  client_id (r_ctx r') = (if str_of (dget "client_id" resp) =?s "" then client_id (r_ctx r) else str_of (dget "client_id" resp)) /\
  client_secret (r_ctx r') = (if (str_of (dget "client_id" resp) =?s "") || (str_of (dget "client_secret" resp) =?s "") then client_secret (r_ctx r) else str_of (dget "client_secret" resp)) /\
  registration_response (r_ctx r') = resp' /\ dget "client_id" resp' = dget "client_id" resp /\ dget "client_secret" resp' = dget "client_secret" resp.
Proof.
  intros H. unfold adopt_registration in H.
  set (re := dsetdefault "token_endpoint_auth_method" (VStr "client_secret_basic") resp) in H.
  assert (G : forall k, k <> "token_endpoint_auth_method" -> dget k re = dget k resp).
  { intros k Hk. unfold re, dsetdefault. destruct (dhas _ resp); [reflexivity|]. apply dget_dset_neq. congruence. }
  clearbody re. rewrite !(G "client_id"), !(G "client_secret") in H by discriminate.
  assert (H1 : resp' = re) by (symmetry; exact (f_equal fst H)).
  assert (H2 := f_equal snd H). cbn [snd] in H2. rewrite H1. clear H H1.
  rewrite (G "client_id"), (G "client_secret") by discriminate.
  rewrite <- H2. clear H2.
  destruct (str_of (dget "client_id" resp) =?s "");
    destruct (str_of (dget "client_secret" resp) =?s ""); destruct (dget "registration_access_token" re);
    cbn [r_keys r_ctx orb app]; rewrite ?app_nil_r; repeat split; reflexivity.
Qed.
Lemma adopt_again resp r resp' r' J c : adopt_registration resp r = (resp', r') ->
  r_keys (snd (adopt_registration resp' (mkr c (VInt 0) None J))) = r_keys (snd (adopt_registration resp (mkr c (VInt 0) None J))).
Proof.
  intros H. destruct (adopt_keys _ _ _ _ H) as (_ & _ & _ & _ & G1 & G2).
  destruct (adopt_registration resp' (mkr c (VInt 0) None J)) as [m1 r1] eqn:E1.
  destruct (adopt_registration resp (mkr c (VInt 0) None J)) as [m2 r2] eqn:E2. cbn [snd].
  destruct (adopt_keys _ _ _ _ E1) as (K1 & _). destruct (adopt_keys _ _ _ _ E2) as (K2 & _).
  rewrite K1, K2, G1, G2. reflexivity.
Qed.
Lemma registered_in c1 c2 W cl sha seed args : c2 = snd (load_registration_response W cl sha seed args c1) ->
  forall j, let j' := registered_keys c1 c2 j in
  (j' = j /\ (client_id c1 <> "" \/ client_id c2 = "")) \/
  (client_id c1 = "" /\ client_id c2 <> "" /\ exists x, (x <> "" -> client_secret c2 = x) /\
   j' = own_keys_also_as (client_id c2) j ++ (if x =?s "" then [] else [("", SSecret x); (client_id c2, SSecret x)]) /\
   x = str_of (dget "client_secret" (registration_response c2))).
Proof.
  intros Ec j j'. unfold j', registered_keys. clear j'.
  destruct (client_id c1 =?s "") eqn:E1; cbn [andb]; [|left; split; [reflexivity|]; left; intros K; rewrite K, eqb_refl in E1; discriminate].
  apply eqb_true_iff in E1.
  destruct (client_id c2 =?s "") eqn:E2; cbn [negb].
  { apply eqb_true_iff in E2. left. auto. }
  assert (N2 : client_id c2 <> "") by (intros K; rewrite K, eqb_refl in E2; discriminate).
  right. split; [exact E1|]. split; [exact N2|].
  destruct (load_registration_response W cl sha seed args c1) as [r c'] eqn:EL. cbn [snd] in Ec. subst c'.
  destruct (C45_registering _ _ _ _ _ _ _ _ EL) as [_ R]. destruct (R E1) as [(R1 & _)|(m & c0 & _ & _ & R1 & R2 & R3 & _)]; [congruence|].
  unfold registration_update in R3. destruct (adopt_registration m (mkr c0 (VInt 0) None [])) as [m' r'] eqn:Ea.
  assert (Hc2 : c2 = r_ctx r') by congruence. clear R3.
  destruct (adopt_keys _ _ _ _ Ea) as (_ & A1 & A2 & A3 & A4 & A5). cbn [r_ctx] in A1, A2.
  exists (str_of (dget "client_secret" m)).
  assert (NI : str_of (dget "client_id" m) =?s "" = false).
  { destruct (str_of (dget "client_id" m) =?s "") eqn:Q; [|reflexivity]. exfalso. apply N2. rewrite Hc2, A1, R1. exact E1. }
  rewrite NI in A1, A2. cbn [orb] in A2.
  assert (ID : client_id c2 = str_of (dget "client_id" m)) by (rewrite Hc2; exact A1).
  split; [|split].
  - intros Nx. rewrite Hc2, A2. now rewrite (eqb_neq _ _ Nx).
  - rewrite Hc2, A3. rewrite (adopt_again _ _ _ _ _ _ Ea).
    destruct (adopt_registration m (mkr c1 (VInt 0) None j)) as [m2 r2] eqn:E3. cbn [snd].
    destruct (adopt_keys _ _ _ _ E3) as (K & _). cbn [r_keys] in K. rewrite K, NI, A1. reflexivity.
  - rewrite Hc2, A3, A5. reflexivity.
Qed.
