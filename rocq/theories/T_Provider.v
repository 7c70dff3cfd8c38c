(** Property theorems C27, C28 (discovery), C29: provider information. *)
From Verif Require Import Base BaseP Json JsonP Msg M_State S_State M_Ctx M_Codec M_Authz M_ClientAuth M_Service
  M_Token M_Handler M_Provider S_Service S_Handler S_Provider P_Ctx P_Service P_Provider Ex.

(** ** C27: provider information is accepted from the configured issuer only *)
Theorem C27_only_from_configured_issuer : forall resp p r p' i,
  oidc_update_provider_info resp p = (r, p') ->
  dget "issuer" resp = Some (VStr i) -> dhas "issuer_mismatch" (allow (p_ctx p)) = false ->
  (same_issuer i (issuer (p_ctx p)) ->
     provider_info (p_ctx p') = resp /\ issuer (p_ctx p') = i /\ r <> Err OidcServiceError /\
     beh_only (set_provider_info resp (set_issuer i (p_ctx p))) (p_ctx p')) /\
  (~ same_issuer i (issuer (p_ctx p)) -> r = Err OidcServiceError /\ p' = p).
Proof.
  intros resp p r p' i H Hi Ha. unfold oidc_update_provider_info, update_provider_info in H. rewrite Hi in H.
  destruct (verify_issuer_spec i (p_ctx p) _ eq_refl Ha) as [V1 V2].
  split; intros S.
  - rewrite (V1 S) in H. cbn [p_ctx p_eps p_keys] in H.
    destruct (match_preferences resp _) as [r1 c1] eqn:E. injection H as <- <-. cbn [p_ctx].
    pose proof (match_preferences_beh _ _ _ _ E) as B. pose proof B as B'. unfold beh_only in B'.
    split; [rewrite B'; reflexivity|]. split; [rewrite B'; reflexivity|]. split; [|exact B].
    intros ->. destruct (match_preferences_exn _ _ _ _ E) as [X|[X|X]]; discriminate.
  - rewrite (V2 S) in H. now injection H as <- <-.
Qed.
Print Assumptions C27_only_from_configured_issuer.

(** the issuer a client ends up with is the configured one (up to a slash) whatever the
    provider says, mismatches allowed or not, and new keys are filed under that name only *)
Theorem C27_issuer_and_keys_stay_with_configured_name : forall resp p r p',
  oidc_update_provider_info resp p = (r, p') ->
  let named i := i = issuer (p_ctx p) \/ (i ++ "/")%string = issuer (p_ctx p) \/ i = (issuer (p_ctx p) ++ "/")%string in
  named (issuer (p_ctx p')) /\
  (p_keys p' = p_keys p \/ exists k, p_keys p' = p_keys p ++ [(issuer (p_ctx p'), k)] /\
     ((exists u, k = SUrl u /\ dget "jwks_uri" resp = Some u) \/
      (exists w, k = SJwks w /\ dget "jwks_uri" resp = None /\ dget "jwks" resp = Some w))).
Proof.
  intros resp p r p' H named. unfold oidc_update_provider_info, update_provider_info in H.
  destruct (match dget "issuer" resp with Some i => verify_issuer i (p_ctx p) | None => Ok (issuer (p_ctx p)) end) as [iss|e] eqn:E.
  - cbn [p_ctx p_eps p_keys] in H. destruct (match_preferences resp _) as [r1 c1] eqn:E1. injection H as <- <-.
    cbn [p_ctx p_keys]. pose proof (match_preferences_beh _ _ _ _ E1) as B. unfold beh_only in B.
    assert (Hi : issuer c1 = iss) by (rewrite B; reflexivity). rewrite Hi. split.
    + unfold named. destruct (dget "issuer" resp); [eapply verify_issuer_same; exact E|]. injection E as ->. auto.
    + destruct (dget "jwks_uri" resp); [right; eauto 6|]. destruct (dget "jwks" resp); [right; eauto 8|now left].
  - injection H as <- <-. cbn [p_ctx p_keys]. split; unfold named; auto.
Qed.
Print Assumptions C27_issuer_and_keys_stay_with_configured_name.

(** the whole of discovery: the stored provider information is as before, or a verified
    answer to the request to the well-known URL whose issuer is the configured one, or the
    place holder for a redirect *)
Definition discovery_issuer (c : ctx) : string :=
  match dget "srv_discovery_url" (config c) with Some (VStr u) => u | _ => issuer c end.
Lemma well_known_eq i u : well_known i u -> u = (strip_slash i ++ "/.well-known/openid-configuration")%string.
Proof.
  intros (b & -> & [->|[-> H]]); f_equal; [now rewrite strip_slash_app'|now rewrite strip_slash_no].
Qed.
Lemma well_known_ex i : exists u, well_known i u.
Proof.
  destruct (ends_with "/" i) eqn:E.
  - apply ends_with_iff in E. destruct E as [t Et]. eexists. exists t. split; [reflexivity|]. now left.
  - eexists. exists i. split; [reflexivity|]. now right.
Qed.
Theorem C28_discovery_url : forall c, well_known (issuer c) (discovery_url c).
Proof.
  intros c. unfold well_known, discovery_url. exists (strip_slash (issuer c)). split; [reflexivity|].
  destruct (ends_with "/" (issuer c)) eqn:E.
  - pose proof E as E'. apply ends_with_iff in E'. destruct E' as [t Et]. left. rewrite Et. now rewrite strip_slash_app'.
  - right. rewrite strip_slash_no by exact E. auto.
Qed.
Print Assumptions C28_discovery_url.
Theorem C27_discovery_outcome : forall W p r p' url, well_known (discovery_issuer (p_ctx p)) url ->
  dynamic_discovery W p = (r, p') -> dhas "issuer_mismatch" (allow (p_ctx p)) = false ->
  (forall c m m', e_vrf W "provider_info" c m = Ok m' -> exists i, dget "issuer" m' = Some (VStr i)) ->
  provider_info (p_ctx p') = provider_info (p_ctx p) \/
  (exists m i resp, provider_info (p_ctx p') = m /\ dget "issuer" m = Some (VStr i) /\
     same_issuer i (discovery_issuer (p_ctx p)) /\ issuer (p_ctx p') = i /\ dhas "error" m = false /\
     e_http W url "GET" None [] = Ok resp) \/
  (exists resp, e_http W url "GET" None [] = Ok resp /\
     (300 <= h_status resp < 400)%Z /\ provider_info (p_ctx p') = [("http_response", VNone)] /\
     issuer (p_ctx p') = discovery_issuer (p_ctx p)).
Proof.
  intros W p r p' url Hw H Ha Hv. apply well_known_eq in Hw. subst url. unfold dynamic_discovery in H.
  set (c := match dget "srv_discovery_url" (config (p_ctx p)) with Some (VStr u) => set_issuer u (p_ctx p) | _ => p_ctx p end) in *.
  assert (Hc : provider_info c = provider_info (p_ctx p) /\ issuer c = discovery_issuer (p_ctx p) /\ allow c = allow (p_ctx p)).
  { unfold c, discovery_issuer. destruct (dget "srv_discovery_url" _) as [[]|]; auto. }
  destruct Hc as (C1 & C2 & C3).
  assert (Hu : discovery_url c = (strip_slash (discovery_issuer (p_ctx p)) ++ "/.well-known/openid-configuration")%string)
    by (unfold discovery_url; now rewrite C2). rewrite Hu in H.
  clearbody c.
  destruct (existsb _ (p_eps p)); [|injection H as <- <-; left; exact C1].
  match type of H with context [get_response ?a ?b ?s ?u ?m ?bo ?rb ?h ?st ?c] =>
    destruct (get_response a b s u m bo rb h st c) as [rr c1] eqn:E end.
  assert (Hro : reads_only (s_post_parse (provider_info_service (e_vrf W "provider_info") []))).
  { intros m st c0 r0 c0' X. now injection X as <- <-. }
  destruct (get_response_spec _ _ _ _ _ _ _ _ _ _ _ _ Hro E) as [-> G].
  destruct rr as [[m|t|h]|e].
  - destruct (dhas "error" m) eqn:Em; [injection H as <- <-; left; exact C1|].
    destruct G as (resp & Eh & G).
    assert (Hi : exists i, dget "issuer" m = Some (VStr i)).
    { assert (Q : forall m0, accepted (provider_info_service (e_vrf W "provider_info") []) c m0 -> exists i, dget "issuer" m0 = Some (VStr i)).
      { intros m0 (m1 & v & st & V1 & V2 & V3). cbn in V3. injection V3 as <-. eapply Hv. exact V1. }
      destruct G as [(_ & _ & [X|X])|(_ & m1 & -> & [X|X])].
      - unfold is_error_message in X. congruence.
      - now apply Q.
      - unfold is_error_message in X. rewrite dhas_dset, X, orb_true_r in Em. discriminate.
      - destruct (Q _ X) as [i Hi]. exists i. rewrite dget_dset_neq by discriminate. exact Hi. }
    destruct Hi as [i Hi].
    assert (Ha' : dhas "issuer_mismatch" (allow (p_ctx (mkp c (p_eps p) (p_keys p)))) = false) by (cbn [p_ctx]; now rewrite C3).
    destruct (C27_only_from_configured_issuer _ _ _ _ _ H Hi Ha') as [K1 K2]. cbn [p_ctx] in K1, K2. rewrite C2 in *.
    assert (D : same_issuer i (discovery_issuer (p_ctx p)) \/ ~ same_issuer i (discovery_issuer (p_ctx p))).
    { destruct (verify_issuer_spec i (set_issuer (discovery_issuer (p_ctx p)) c) _ eq_refl) as [V1 V2].
      - cbn [allow set_issuer]. now rewrite C3.
      - cbn [issuer set_issuer] in V1, V2. unfold verify_issuer in *.
        destruct (ends_with "/" i) eqn:E1; destruct (ends_with "/" (discovery_issuer (p_ctx p))) eqn:E2.
        all: destruct (string_dec i (discovery_issuer (p_ctx p))) as [->|N1]; [left; constructor|].
        + right. intros X. inversion X; subst; congruence.
        + destruct (string_dec i (discovery_issuer (p_ctx p) ++ "/")%string) as [->|N2]; [left; now constructor|].
          right. intros X. inversion X; subst; congruence.
        + destruct (string_dec (i ++ "/")%string (discovery_issuer (p_ctx p))) as [<-|N2]; [left; now constructor|].
          right. intros X. inversion X; subst; try congruence.
        + right. intros X. inversion X as [s A B|s A B Q|s A B Q]; subst; try congruence.
          * rewrite (proj2 (ends_with_iff "/" (discovery_issuer (p_ctx p) ++ "/"))) in E1; [discriminate|eauto].
          * rewrite <- Q in E2. rewrite (proj2 (ends_with_iff "/" (i ++ "/"))) in E2; [discriminate|eauto]. }
    destruct D as [D|D].
    + right. left. destruct (K1 D) as (Q1 & Q2 & _ & _). exists m, i, resp. auto 10.
    + left. destruct (K2 D) as [_ ->]. exact C1.
  - injection H as <- <-. left. exact C1.
  - destruct G as (resp & Eh & -> & Hst). right. right. exists resp. split; [exact Eh|]. split; [exact Hst|].
    unfold oidc_update_provider_info, update_provider_info in H.
    cbn [dget String.eqb Ascii.eqb Bool.eqb andb p_ctx p_eps p_keys] in H.
    change (dget "issuer" [("http_response", VNone)]) with (@None val) in H.
    change (dget "jwks_uri" [("http_response", VNone)]) with (@None val) in H.
    change (dget "jwks" [("http_response", VNone)]) with (@None val) in H. cbn [p_ctx p_eps p_keys] in H.
    destruct (match_preferences _ _) as [r1 c1] eqn:E1. injection H as <- <-. cbn [p_ctx].
    pose proof (match_preferences_beh _ _ _ _ E1) as B. unfold beh_only in B. rewrite B. split; [reflexivity|exact C2].
  - injection H as <- <-. left. exact C1.
Qed.
Print Assumptions C27_discovery_outcome.

(** a rejected answer gives OidcServiceError and leaves everything as it was: example *)
Definition ex_eps : list sep :=
  [mksep "provider_info" "" (VStr ""); mksep "authorization" "authorization_endpoint" (VStr "");
   mksep "accesstoken" "token_endpoint" (VStr ""); mksep "refresh_token" "token_endpoint" (VStr "")].
Definition ex_fresh : ctx :=
  set_provider_info [] (set_behaviour [] ex_ctx).
Definition ex_p0 : pstate := mkp ex_fresh ex_eps [].
Definition ex_pcr : dict val :=
  [("issuer", VStr "https://op.example/"); ("authorization_endpoint", VStr "https://op.example/a");
   ("token_endpoint", VStr "https://op.example/t"); ("jwks_uri", VStr "https://op.example/jwks");
   ("response_types_supported", strs ["code"; "id_token"])].
Definition ex_pcr_bad : dict val := [("issuer", VStr "https://evil.example"); ("token_endpoint", VStr "https://evil.example/t")].
Example C27_example_accepts :
  let (r, p') := oidc_update_provider_info ex_pcr ex_p0 in
  r = Ok tt /\ issuer (p_ctx p') = "https://op.example/" /\ p_keys p' = [("https://op.example/", SUrl (VStr "https://op.example/jwks"))].
Proof. vm_compute. auto. Qed.
Example C27_example_rejects : oidc_update_provider_info ex_pcr_bad ex_p0 = (Err OidcServiceError, ex_p0).
Proof. vm_compute. reflexivity. Qed.

(** finding: "allow": {"issuer_mismatch": False} allows mismatches all the same, and the
    foreign endpoints are adopted *)
Definition ex_allow_false : pstate :=
  mkp (mkctx "https://op.example" "" "" "" "" (VDict []) [] [] [] [] [] [] [] [] [("issuer_mismatch", VBool false)] [] []) ex_eps [].
Theorem C27_mismatch_disallowed_by_false_refuted :
  dget "issuer_mismatch" (allow (p_ctx ex_allow_false)) = Some (VBool false) /\
  let (r, p') := oidc_update_provider_info ex_pcr_bad ex_allow_false in
  r = Ok tt /\ provider_info (p_ctx p') = ex_pcr_bad /\
  exists s, In s (p_eps p') /\ sep_name s = "accesstoken" /\ endpoint_of s (p_ctx p') = Ok (VStr "https://evil.example/t").
Proof.
  vm_compute. repeat split. exists (mksep "accesstoken" "token_endpoint" (VStr "https://evil.example/t")). auto 10.
Qed.
Print Assumptions C27_mismatch_disallowed_by_false_refuted.

(** ** C28: discovery URL and published endpoints *)


(** discovery makes exactly one request, to that URL *)
Theorem C28_discovery_asks_only_there : forall W http' p u, well_known (discovery_issuer (p_ctx p)) u ->
  (http' u "GET" None [] = e_http W u "GET" None [] ->
   dynamic_discovery (with_http W http') p = dynamic_discovery W p) /\
  (forall e, e_http W u "GET" None [] = Err e -> existsb (fun s => sep_name s =?s "provider_info") (p_eps p) = true ->
   fst (dynamic_discovery W p) = Err e).
Proof.
  intros W http' p u0 Hw. apply well_known_eq in Hw. subst u0.
  set (u := (strip_slash (discovery_issuer (p_ctx p)) ++ "/.well-known/openid-configuration")%string).
  assert (Hu : discovery_url (match dget "srv_discovery_url" (config (p_ctx p)) with
            Some (VStr u) => set_issuer u (p_ctx p) | _ => p_ctx p end) = u).
  { unfold discovery_url, u, discovery_issuer. destruct (dget "srv_discovery_url" _) as [[]|]; reflexivity. }
  split.
  - intros E. unfold dynamic_discovery. rewrite Hu. destruct (existsb _ _); [|reflexivity].
    cbn [with_http e_http e_jwt e_vrf]. unfold get_response. rewrite E. reflexivity.
  - intros e E Hs. unfold dynamic_discovery. rewrite Hu, Hs. unfold get_response. rewrite E. reflexivity.
Qed.
Print Assumptions C28_discovery_asks_only_there.

(** after discovery every service uses the endpoint the provider published for it *)
Theorem C28_discovered_endpoints_are_used : forall resp p r p' s,
  oidc_update_provider_info resp p = (r, p') -> provider_info (p_ctx p') = resp -> NoDup (dkeys resp) ->
  Forall (fun s0 => sep_url s0 = VStr "") (p_eps p) -> In s (p_eps p') ->
  endpoint_of s (p_ctx p') = dict_get (sep_ename s) resp.
Proof.
  intros resp p r p' s H Hp N F Hs. unfold endpoint_of. rewrite Hp.
  assert (Q : Forall2 (from_resp resp) (p_eps p) (p_eps p')).
  { unfold oidc_update_provider_info, update_provider_info in H.
    destruct (match dget "issuer" resp with Some _ => _ | None => _ end).
    - cbn [p_ctx p_eps p_keys] in H. destruct (match_preferences _ _). injection H as <- <-. cbn [p_eps].
      unfold set_endpoints. apply set_endpoints_from. auto.
    - injection H as <- <-. clear. induction (p_eps p); constructor; auto. repeat split; auto. }
  clear H Hp. induction Q as [|s0 s1 l l' R Q IH]; [contradiction|]. inversion F as [|x y F1 F2]; subst.
  destruct Hs as [->|Hs]; [|now apply IH].
  destruct R as (_ & R2 & [R3|R3]).
  - rewrite R3, F1. reflexivity.
  - unfold dict_get. rewrite (dget_of_In _ _ _ N R3). now destruct (truthy (sep_url s)).
Qed.
Print Assumptions C28_discovered_endpoints_are_used.
Example C28_example_discovered :
  let (r, p') := oidc_update_provider_info ex_pcr ex_p0 in
  map (fun s => endpoint_of s (p_ctx p')) (p_eps p') =
    [Err (KeyError ""); Ok (VStr "https://op.example/a"); Ok (VStr "https://op.example/t"); Ok (VStr "https://op.example/t")].
Proof. vm_compute. reflexivity. Qed.

(** configured provider information: every service that has an endpoint published uses it
    (even over an endpoint it had), the others keep theirs *)
Theorem C28_configured_provider_info_is_used : forall W p r p',
  do_provider_info W p = (r, p') -> provider_info (p_ctx p) <> [] -> NoDup (dkeys (provider_info (p_ctx p))) ->
  p_ctx p' = p_ctx p /\
  (usable_keys (provider_info (p_ctx p)) ->
   r = Ok (match dget "issuer" (provider_info (p_ctx p)) with Some v => v | None => VStr (issuer (p_ctx p)) end)) /\
  forall s, In s (p_eps p') ->
    (forall v, ends_with "_endpoint" (sep_ename s) = true -> dget (sep_ename s) (provider_info (p_ctx p)) = Some v ->
       endpoint_of s (p_ctx p') = Ok v) /\
    (dget (sep_ename s) (provider_info (p_ctx p)) = None ->
       exists s0, In s0 (p_eps p) /\ sep_name s0 = sep_name s /\ endpoint_of s (p_ctx p') = endpoint_of s0 (p_ctx p)).
Proof.
  intros W p r p' H Hne N. unfold do_provider_info in H.
  destruct (provider_info (p_ctx p)) as [|kv pi] eqn:E; [contradiction|].
  destruct (load_configured_keys (issuer (p_ctx p)) (kv :: pi) (p_keys p)) as [r1 j] eqn:Ej.
  assert (Hr : r = match r1 with Ok _ => Ok (match dget "issuer" (kv :: pi) with Some v => v | None => VStr (issuer (p_ctx p)) end) | Err e => Err e end) by congruence.
  assert (Hp : p' = mkp (p_ctx p) (set_all (kv :: pi) (p_eps p)) j) by congruence. clear H. rewrite Hp. clear Hp. cbn [p_ctx p_eps].
  split; [reflexivity|]. split.
  { intros U. apply (load_configured_ok (issuer (p_ctx p)) _ (p_keys p)) in U. rewrite Ej in U. cbn [fst] in U. now rewrite Hr, U. }
  intros s Hs. split.
  - intros v He Hg. pose proof (set_all_sets (kv :: pi) (p_eps p) _ v s N He Hg Hs eq_refl) as U.
    unfold endpoint_of. rewrite U, E. unfold dict_get. rewrite Hg. now destruct (truthy v).
  - intros Hg. assert (Q : Forall2 (from_resp (kv :: pi)) (p_eps p) (set_all (kv :: pi) (p_eps p)))
      by (unfold set_all; apply set_all_from; auto).
    change (In s (set_all (kv :: pi) (p_eps p))) in Hs. revert Q Hs. generalize (set_all (kv :: pi) (p_eps p)). generalize (p_eps p). intros l l' Q.
    induction Q as [|s0 s1 l l' R Q IH]; [intros []|]. intros [->|Hs].
    + exists s0. split; [now left|]. destruct R as (R1 & R2 & [R3|R3]).
      * split; [congruence|]. unfold endpoint_of. now rewrite R3, R2.
      * apply In_dhas in R3. unfold dhas in R3. rewrite Hg in R3. discriminate.
    + destruct (IH Hs) as (t & T1 & T2). exists t. split; [now right|exact T2].
Qed.
Print Assumptions C28_configured_provider_info_is_used.

(** ** C29: negotiation *)
Theorem C29_negotiated_values_supported_by_both : forall pcr c r c',
  pcr <> [] -> match_preferences pcr c = (r, c') ->
  (forall pref prov vals, In (pref, prov) negotiated_against -> dget pref (client_preferences c) = Some vals ->
     sensible pcr pref prov vals) ->
  (* success: each preference has the negotiated value (or, when nothing matches, an earlier setting) *)
  (r = Ok tt -> forall pref prov vals, In (pref, prov) negotiated_against -> dget pref (client_preferences c) = Some vals ->
     exists o, negotiated pcr pref prov vals o /\ dget pref (behaviour c') <> None /\
       dget pref (behaviour c') = match o with Some v => Some v | None => dget pref (behaviour c) end) /\
  (* failure: exactly when some preference cannot be met *)
  (r = Err ConfigurationError <-> exists pref prov vals, In (pref, prov) negotiated_against /\
     dget pref (client_preferences c) = Some vals /\ negotiated pcr pref prov vals None /\ dget pref (behaviour c) = None).
Proof. exact match_preferences_spec. Qed.
Print Assumptions C29_negotiated_values_supported_by_both.

(** preferences that are not negotiated are adopted unless already set, a list's first
    member for a setting with one value; nothing else is added to the behaviour *)
Theorem C29_other_preferences_adopted : forall pcr c c' k,
  pcr <> [] -> match_preferences pcr c = (Ok tt, c') ->
  (forall pref prov vals, In (pref, prov) negotiated_against -> dget pref (client_preferences c) = Some vals ->
     sensible pcr pref prov vals) ->
  NoDup (dkeys (client_preferences c)) -> ~ In k (map fst negotiated_against) ->
  (forall w, dget k (behaviour c) = Some w -> dget k (behaviour c') = Some w) /\
  (dget k (behaviour c) = None -> forall v, dget k (client_preferences c) = Some v ->
     (forall x l, In k one_valued -> v = VList (x :: l) -> dget k (behaviour c') = Some x) /\
     (~ In k one_valued \/ (forall l, v <> VList l) -> dget k (behaviour c') = Some v)) /\
  (dget k (behaviour c) = None -> dget k (client_preferences c) = None -> dget k (behaviour c') = None).
Proof.
  intros pcr c c' k Hp H Hs N Hk.
  assert (Hk' : dhas k PREFERENCE2PROVIDER = false).
  { destruct (dhas k PREFERENCE2PROVIDER) eqn:X; [|reflexivity]. apply dhas_In in X. contradiction. }
  pose proof (match_preferences_other _ _ _ k Hp H Hs N Hk') as G.
  split; [intros w E; now rewrite E in G|]. split.
  - intros E v Hv. rewrite E, Hv in G. rewrite G. pose proof (single_get k) as SG. unfold single_valued in SG. split.
    + intros x l S ->. now rewrite (proj1 SG S).
    + intros [S|S].
      * destruct (dget k registration_params) as [[|]|]; try reflexivity. now destruct (S (proj2 SG eq_refl)).
      * destruct (dget k registration_params) as [[|]|]; try reflexivity. destruct v as [| | | |[|]|]; try reflexivity. now destruct (S (v :: l)).
  - intros E Hv. now rewrite E, Hv in G.
Qed.
Print Assumptions C29_other_preferences_adopted.

(** in words: every chosen value is one of the client's own and supported by the provider *)
Theorem C29_chosen_is_preferred_and_supported : forall pcr pref prov vals v, negotiated pcr pref prov vals (Some v) ->
  (single_valued pref \/ (forall l, vals <> VList l) -> In v (options vals) /\ supports pcr pref prov v) /\
  (forall l, vals = VList l -> ~ single_valued pref ->
     exists out, v = VList out /\ forall x, In x out <-> In x l /\ supports pcr pref prov x).
Proof.
  intros pcr pref prov vals v N. inversion N as [l f V S1 S2|l1 x l2 V V2 F2 Px|]; subst.
  - split.
    + intros [X|X]; [contradiction|]. exfalso; now apply (X l).
    + intros l' X _. injection X as <-. exists (filter f l). split; [reflexivity|]. intros x. rewrite filter_In.
      split; intros [A B]; (split; [exact A|]); now apply (S2 x A).
  - split.
    + intros _. split; [|exact Px]. rewrite V2. apply in_or_app. right. now left.
    + intros l -> Hn. exfalso. eauto.
Qed.
Print Assumptions C29_chosen_is_preferred_and_supported.

(** preferences outside the table are adopted unless already set; the configured list's
    first member for single valued ones *)
Definition ex_prefs : dict val :=
  [("response_types", strs ["code id_token"; "code"]); ("token_endpoint_auth_method", strs ["private_key_jwt"; "client_secret_basic"]);
   ("application_type", VStr "web"); ("contacts", strs ["ops@example.com"])].
Definition ex_negctx (prefs beh : dict val) : ctx :=
  mkctx "https://op.example" "" "" "" "" (VDict []) [] [] beh [] [] [] prefs [] [] [] [].
Example C29_example : match_preferences ex_pcr (ex_negctx ex_prefs []) =
  (Ok tt, ex_negctx ex_prefs [("token_endpoint_auth_method", VStr "client_secret_basic"); ("response_types", strs ["code"]);
     ("application_type", VStr "web"); ("contacts", strs ["ops@example.com"])]).
Proof. vm_compute. reflexivity. Qed.
Example C29_example_error :
  fst (match_preferences ex_pcr (ex_negctx [("id_token_signed_response_alg", strs ["ES256"; "PS256"])] [])) = Err ConfigurationError.
Proof. vm_compute. reflexivity. Qed.
(** findings: a list valued preference without overlap is no error; a part of the default's
    name passes as supported; an unsupported value set earlier survives *)
Theorem C29_no_overlap_in_a_list_is_no_error_refuted :
  match_preferences ex_pcr (ex_negctx [("response_types", strs ["token"])] []) =
    (Ok tt, ex_negctx [("response_types", strs ["token"])] [("response_types", VList [])]).
Proof. vm_compute. reflexivity. Qed.
Print Assumptions C29_no_overlap_in_a_list_is_no_error_refuted.
Theorem C29_part_of_default_name_accepted_refuted :
  match_preferences ex_pcr (ex_negctx [("token_endpoint_auth_method", VStr "client_secret")] []) =
    (Ok tt, ex_negctx [("token_endpoint_auth_method", VStr "client_secret")] [("token_endpoint_auth_method", VStr "client_secret")]).
Proof. vm_compute. reflexivity. Qed.
Print Assumptions C29_part_of_default_name_accepted_refuted.
Theorem C29_earlier_setting_survives_refuted :
  match_preferences ex_pcr (ex_negctx [("id_token_signed_response_alg", strs ["ES256"])] [("id_token_signed_response_alg", VStr "none")]) =
    (Ok tt, ex_negctx [("id_token_signed_response_alg", strs ["ES256"])] [("id_token_signed_response_alg", VStr "none")]).
Proof. vm_compute. reflexivity. Qed.
Print Assumptions C29_earlier_setting_survives_refuted.
