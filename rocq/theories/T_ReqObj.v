(** Property theorems C35 (web names and files), C48 (request objects), C49 (joining URLs) and
    C50 (importable names).  Model in M_ReqObj.v. *)
From Verif Require Import Base BaseP Json JsonP Msg M_State S_State M_Ctx M_Codec M_Authz M_ClientAuth M_Service M_Token
  M_Registration S_Service P_Ctx P_Codec P_Service M_ReqObj.

(** ** C35 *)
Theorem C35_outside_base_rejected : forall base w,
  filename_from_webname base w = Err ValueError <-> ~ exists rest, w = (base ++ rest)%string.
Proof.
  intros base w. unfold filename_from_webname. destruct (starts_with base w) eqn:S.
  - split; [discriminate|]. intros N. exfalso. apply N. now apply starts_with_iff.
  - split; [|reflexivity]. intros _ H. apply starts_with_iff in H. congruence.
Qed.
Print Assumptions C35_outside_base_rejected.
Theorem C35_name_under_base : forall base name, filename_from_webname base (base ++ "/" ++ name) = Ok name.
Proof. intros base name. unfold filename_from_webname. now rewrite starts_with_app, drop_app. Qed.
Print Assumptions C35_name_under_base.
(** two web names with one file name are equal, or differ in the slash after the base only *)
Theorem C35_file_name_determines_web_name : forall base w1 w2 f,
  filename_from_webname base w1 = Ok f -> filename_from_webname base w2 = Ok f ->
  w1 = w2 \/ (w1 = (base ++ f)%string /\ w2 = (base ++ "/" ++ f)%string) \/ (w1 = (base ++ "/" ++ f)%string /\ w2 = (base ++ f)%string).
Proof.
  assert (G : forall base w f, filename_from_webname base w = Ok f -> w = (base ++ f)%string \/ w = (base ++ "/" ++ f)%string).
  { intros base w f. unfold filename_from_webname. destruct (starts_with base w) eqn:S; [|discriminate].
    apply starts_with_inv in S. cbv zeta. destruct (starts_with "/" (drop (String.length base) w)) eqn:L; intros H.
    - right. apply starts_with_inv in L. assert (H' : f = drop 1 (drop (String.length base) w)) by congruence.
      rewrite S. f_equal. rewrite H'. exact L.
    - left. assert (H' : f = drop (String.length base) w) by congruence. now rewrite H'. }
  intros base w1 w2 f H1 H2. apply G in H1 as [->| ->]; apply G in H2 as [->| ->]; auto.
Qed.
Print Assumptions C35_file_name_determines_web_name.
(** in particular web names made by the library for different issuers have different files *)
Theorem C35_request_uri_files_differ : forall sha path c1 c2, base_url c1 = base_url c2 ->
  starts_with "/" path = true ->
  let w1 := hd "" (fst (generate_request_uris sha path c1)) in
  let w2 := hd "" (fst (generate_request_uris sha path c2)) in
  exists f1 f2, filename_from_webname (base_url c1) w1 = Ok f1 /\ filename_from_webname (base_url c2) w2 = Ok f2 /\
    (f1 = f2 -> w1 = w2).
Proof.
  intros sha path c1 c2 B P w1 w2. unfold w1, w2, generate_request_uris. cbn [fst hd]. rewrite P.
  apply starts_with_inv in P. cbn [String.length] in P.
  assert (X : forall b h, filename_from_webname b (b ++ path ++ h)%string = Ok (drop 1 path ++ h)%string).
  { intros b h. rewrite P at 1. change ("/" ++ drop 1 path)%string with (String "/"%char (drop 1 path)). cbn [append].
    change (String "/"%char (drop 1 path ++ h)) with ("/" ++ (drop 1 path ++ h))%string. apply C35_name_under_base. }
  rewrite !X. eexists. eexists. repeat split. intros H. apply sapp_inj_l in H. now rewrite H, B.
Qed.
Print Assumptions C35_request_uri_files_differ.

(** *** findings *)
Theorem C35_not_one_to_one_refuted : forall base name, starts_with "/" name = false ->
  filename_from_webname base (base ++ name) = Ok name /\ filename_from_webname base (base ++ "/" ++ name) = Ok name.
Proof.
  intros base name S. split; [|apply C35_name_under_base]. unfold filename_from_webname. now rewrite starts_with_app, drop_app, S.
Qed.
Print Assumptions C35_not_one_to_one_refuted.
(** a look-alike host is not outside the base *)
Theorem C35_look_alike_host_refuted :
  filename_from_webname "https://rp.example" "https://rp.example.evil.org/x.jwt" = Ok ".evil.org/x.jwt".
Proof. reflexivity. Qed.
Print Assumptions C35_look_alike_host_refuted.
(** the file need not be below the directory of the RP: any absolute path has a web name *)
Theorem C35_any_file_refuted : forall base path, filename_from_webname base (base ++ "/" ++ ("/" ++ path)) = Ok ("/" ++ path)%string.
Proof. intros. apply C35_name_under_base. Qed.
Print Assumptions C35_any_file_refuted.

(** ** C48: request objects *)
(** which algorithm, issuer and audience *)
Theorem C48_algorithm : forall c kwargs,
  (forall v, dget "request_object_signing_alg" kwargs = Some v -> truthy v = true -> request_object_alg c kwargs = v) /\
  (forall v, dget "request_object_signing_alg" kwargs = None -> dget "algorithm" kwargs = Some v -> truthy v = true ->
     request_object_alg c kwargs = v) /\
  (dget "request_object_signing_alg" kwargs = None -> dget "algorithm" kwargs = None -> forall v,
     dget "request_object_signing_alg" (behaviour c) = Some v -> request_object_alg c kwargs = v) /\
  (dget "request_object_signing_alg" kwargs = None -> dget "algorithm" kwargs = None ->
     dget "request_object_signing_alg" (behaviour c) = None -> request_object_alg c kwargs = VStr "RS256").
Proof.
  intros c kwargs. unfold request_object_alg. repeat split.
  - intros v -> T. cbn [otruthy]. now rewrite T.
  - intros v -> -> T. cbn [otruthy]. now rewrite T.
  - intros -> -> v ->. reflexivity.
  - intros -> -> ->. reflexivity.
Qed.
Print Assumptions C48_algorithm.

(** the request that is sent when a request object is asked for: [full] is the whole request
    (as stored in the session); the object is signed over all of it, from the client, for the
    provider; nothing of it stays outside but the required parameters *)
Lemma keep_only_get ks m k : dget k (keep_only ks m) = if mem_str k ks then dget k m else None.
Proof.
  induction m as [|[x v] r IH]; cbn [keep_only filter dget fst]; [now destruct (mem_str k ks)|]. fold (keep_only ks r).
  destruct (mem_str x ks) eqn:X; cbn [dget].
  - destruct (String.eqb_spec x k) as [->|N]; [now rewrite X|exact IH].
  - destruct (String.eqb_spec x k) as [->|N]; [rewrite IH, X; reflexivity|exact IH].
Qed.
Definition plain_args (kw : dict val) : Prop :=
  forall k, In k ["issuer"; "recv"; "keys"; "expires_in"; "request_object_encryption_alg"] -> dget k kw = None.
Lemma post_inv mk req kw c sent c' p : oidc_authz_post mk req kw c = (Ok sent, c') -> dget "request_param" kw = Some (VStr p) -> p <> "" ->
  exists full s o, dget "state" full = Some (VStr s) /\ get_item (sdb c') cAuthzRequest "auth_request" s = msg_new cAuthzRequest (msg_to_dict cAuthzRequest full) /\
    mk c' full p kw = Ok o /\ c' = set_db (sdb c') c /\
    sent = keep_only (["request"; "request_uri"] ++ c_req cAuthzRequest) (dset (if p =?s "request" then "request" else "request_uri") (VStr o) full).
Proof.
  intros H Hp Np. unfold oidc_authz_post, bind in H. destruct (oidc_post_construct req c) as [[full|e] c1] eqn:O; [|discriminate].
  unfold oidc_request_param in H. rewrite Hp, (eqb_neq _ _ Np) in H. destruct (mk c1 full p kw) as [o|e] eqn:Mk; [|discriminate].
  apply pair_equal_spec in H as [H ->]. injection H as <-.
  assert (X : c' = set_db (sdb c') c /\ exists s, dget "state" full = Some (VStr s) /\
    get_item (sdb c') cAuthzRequest "auth_request" s = msg_new cAuthzRequest (msg_to_dict cAuthzRequest full)).
  { unfold oidc_post_construct in O. destruct (dget "scope" req) as [sc|]; [|discriminate].
    destruct (py_in "openid" sc) as [ho|]; [|discriminate]. destruct (py_in "offline_access" sc) as [off|]; [|discriminate].
    unfold bind at 1 in O.
    match type of O with (match ?m c with _ => _ end) = _ => assert (N : forall r cc, m c = (r, cc) -> cc = set_db (sdb cc) c);
      [|destruct (m c) as [[u|e] c2] eqn:St; [specialize (N _ _ eq_refl)|discriminate]] end.
    { intros r cc. destruct ho; [|intros Y; injection Y as _ <-; now rewrite set_db_same].
      repeat match goal with |- context [match ?x with _ => _ end] => destruct x end;
        try (intros Y; injection Y as _ <-; now rewrite set_db_same).
      unfold on_db. destruct (store_nonce2state _ _ _) as [r1 d1]. intros Y. injection Y as _ <-. now rewrite sdb_set. }
    cbv zeta in O. match type of O with context [dget "state" ?x] => set (req1 := x) in O end. destruct (dget "state" req1) as [[| | |s| |]|] eqn:S; try discriminate.
    unfold bind, on_db, ret in O. destruct (store_item _ _ s (sdb c2)) as [[u'|e] d] eqn:SI; [|discriminate].
    apply pair_equal_spec in O as [O1 O2]. injection O1 as <-. subst c'. rewrite sdb_set. split.
    - rewrite N. now rewrite set_db_set.
    - exists s. split; [exact S|]. apply store_item_effect in SI as (SI & _). apply SI. }
  destruct X as (X1 & s & X2 & X3). exists full, s, o. auto.
Qed.
Theorem C48_request_object_covers_the_request : forall E fs req kw c sent c' p,
  oidc_authz_post (mkobj_of E fs) req kw c = (Ok sent, c') -> dget "request_param" kw = Some (VStr p) -> In p ["request"; "request_uri"] ->
  plain_args kw -> dget "request_object_encryption_alg" (behaviour c) = None ->
  exists full s obj,
    dget "state" full = Some (VStr s) /\ get_item (sdb c') cAuthzRequest "auth_request" s = msg_new cAuthzRequest (msg_to_dict cAuthzRequest full) /\
    ro_sign E (if val_eqb (request_object_alg c kw) (VStr "none") then NoKeys else if truthy (request_object_alg c kw) then OwnKeys else NotGiven)
      (VStr (client_id c)) (request_object_alg c kw)
      (match dget "issuer" (provider_info c) with Some v => v | None => VStr (issuer c) end)
      (msg_to_dict cAuthzRequest full) = Ok obj /\
    (p = "request" -> dget "request" sent = Some (VStr obj)) /\
    (p = "request_uri" -> exists url fs', dget "request_uri" sent = Some (VStr url) /\
       store_request_on_file fs c (local_dir c) (base_url c ++ "/requests") (ro_rnd E) (ro_fuel E) obj = (Ok url, fs')) /\
    forall k v, dget k sent = Some v -> k <> p -> k = "request" \/ k = "request_uri" \/ (In k (c_req cAuthzRequest)) /\ dget k full = Some v.
Proof.
  intros E fs req kw c sent c' p H Hp Ip PA Enc.
  assert (Np : p <> "") by (destruct Ip as [<-|[<-|[]]]; discriminate).
  destruct (post_inv _ _ _ _ _ _ _ H Hp Np) as (full & s & o & S & I & Mk & C & ->). exists full, s.
  unfold mkobj_of, request_parameter, request_object, ro_claims, ro_keys, ro_issuer, ro_audience, request_object_encryption in Mk.
  rewrite !PA in Mk by (cbn; auto 10). cbn [rbind not_none] in Mk.
  rewrite C in Mk. change (behaviour (set_db (sdb c') c)) with (behaviour c) in Mk. rewrite Enc in Mk.
  change (request_object_alg (set_db (sdb c') c) kw) with (request_object_alg c kw) in Mk.
  change (client_id (set_db (sdb c') c)) with (client_id c) in Mk. change (issuer (set_db (sdb c') c)) with (issuer c) in Mk.
  change (provider_info (set_db (sdb c') c)) with (provider_info c) in Mk.
  match type of Mk with context [ro_sign E ?a ?b ?d ?e ?f] => destruct (ro_sign E a b d e f) as [obj|] eqn:Sg; [|discriminate] end.
  exists obj. repeat split; auto.
  - intros ->. cbn [fst rbind] in Mk. injection Mk as <-. rewrite keep_only_get. cbn [mem_str existsb app String.eqb Ascii.eqb Bool.eqb orb]. apply dget_dset_eq.
  - intros ->. cbn [rbind] in Mk. change ("request_uri" =?s "request") with false in *. cbn iota in *.
    destruct (store_request_on_file _ _ _ _ _ _ _) as [r fs'] eqn:St in Mk. cbn [fst] in Mk. subst r. exists o, fs'. split.
    + rewrite keep_only_get. cbn [mem_str existsb app String.eqb Ascii.eqb Bool.eqb orb]. apply dget_dset_eq.
    + exact St.
  - intros k v D Nk. rewrite keep_only_get in D. destruct (mem_str k _) eqn:M in D; [|discriminate]. apply mem_str_In in M. cbn [app] in M.
    destruct M as [<-|[<-|M]]; [auto|auto|]. right; right. split; [exact M|]. rewrite dget_dset_neq in D; [exact D|].
    intros <-. destruct (p =?s "request"); cbn in M; intuition discriminate.
Qed.
Print Assumptions C48_request_object_covers_the_request.

(** by reference: the provider finds the object under the URL it is given *)
Theorem C48_reference_registered : forall fs c dir base rnd fuel text url fs' w r,
  dget "request_uris" (registration_response c) = Some (VList (VStr w :: r)) ->
  store_request_on_file fs c dir base rnd fuel text = (Ok url, fs') ->
  url = w /\ exists f, filename_from_webname (base_url c) url = Ok f /\ dget f fs' = Some text /\
    forall f', f' <> f -> dget f' fs' = dget f' fs.
Proof.
  intros fs c dir base rnd fuel text url fs' w r R H. unfold store_request_on_file in H. rewrite R in H.
  destruct (filename_from_webname (base_url c) w) as [f|] eqn:F; [|discriminate]. injection H as <- <-. split; [reflexivity|].
  exists f. repeat split; auto; [apply dget_dset_eq|]. intros f' N. apply dget_dset_neq. congruence.
Qed.
Print Assumptions C48_reference_registered.
Lemma free_name_spec fs dir rnd fuel : forall i name n, free_name fs dir rnd fuel i name = Some n -> dhas (path_join dir n) fs = false.
Proof.
  induction fuel as [|k IH]; intros i name n H; [discriminate|]. cbn [free_name] in H.
  destruct (dhas (path_join dir name) fs) eqn:D; [eauto|]. now injection H as <-.
Qed.
Theorem C48_reference_unregistered : forall fs c dir base rnd fuel text url fs',
  dget "request_uris" (registration_response c) = None -> ends_with "/" base = false ->
  store_request_on_file fs c dir base rnd fuel text = (Ok url, fs') ->
  exists name, url = (base ++ "/" ++ name)%string /\ dget (path_join dir name) fs = None /\
    dget (path_join dir name) fs' = Some text /\ forall f, dget f fs <> None -> dget f fs' = dget f fs.
Proof.
  intros fs c dir base rnd fuel text url fs' R B H. unfold store_request_on_file, construct_request_uri in H. rewrite R in H.
  destruct (free_name fs dir rnd fuel 1 _) as [n|] eqn:F; [|discriminate]. rewrite B in H. injection H as <- <-.
  apply free_name_spec in F. unfold dhas in F. exists n. destruct (dget (path_join dir n) fs) eqn:D; [discriminate|].
  repeat split; auto; [apply dget_dset_eq|]. intros f N. apply dget_dset_neq. intros E. rewrite E in D. contradiction.
Qed.
Print Assumptions C48_reference_unregistered.
(** encryption is never skipped when an algorithm is set *)
Theorem C48_encryption_not_skipped : forall E c kw req o alg, request_object E c req kw = Ok o ->
  (dget "request_object_encryption_alg" kw = Some alg \/
   dget "request_object_encryption_alg" kw = None /\ dget "request_object_encryption_alg" (behaviour c) = Some alg) -> truthy alg = true ->
  exists enc kid target jws, truthy enc = true /\ dget "target" kw = Some target /\ ro_encrypt E alg enc kid target jws = Ok o.
Proof.
  intros E c kw req o alg H A T. unfold request_object in H. destruct (ro_claims E req kw) as [cl|]; [|discriminate]. cbn [rbind] in H.
  destruct (ro_sign E _ _ _ _ _) as [jws|] in H; [|discriminate]. cbn [rbind] in H. unfold request_object_encryption in H.
  assert (L : (match dget "request_object_encryption_alg" kw with Some v => Some v | None => dget "request_object_encryption_alg" (behaviour c) end) = Some alg)
    by (destruct A as [->|[-> ->]]; reflexivity).
  rewrite L, T in H. cbn [negb] in H.
  match type of H with (match ?x with _ => _ end) = _ => destruct x as [enc|]; [|discriminate] end.
  destruct (truthy enc) eqn:Te; [|discriminate]. cbn [negb] in H. destruct (dget "target" kw) as [t|]; [|discriminate]. eauto 10.
Qed.
Print Assumptions C48_encryption_not_skipped.

(** *** findings *)
(** The arguments the service hands on never name a target, so with an encryption algorithm
    configured no request object can be made. *)
Theorem C48_encryption_impossible_refuted : forall E c req kw alg,
  dget "request_object_encryption_alg" (behaviour c) = Some alg -> truthy alg = true ->
  forall o, request_object E c req (oidc_pre_post_args [] kw) <> Ok o.
Proof.
  intros E c req kw alg A T o H.
  assert (X : forall k, ~ In k ["request_object_signing_alg"; "algorithm"; "sig_kid"; "request_param"] -> dget k (oidc_pre_post_args [] kw) = None).
  { intros k N. unfold oidc_pre_post_args. cbv zeta.
    assert (Y : forall k' v (d : dict val), In k' ["request_object_signing_alg"; "algorithm"; "sig_kid"; "request_param"] -> dget k (dset k' v d) = dget k d)
      by (intros k' v d I; apply dget_dset_neq; intros ->; contradiction).
    repeat match goal with |- context [match dget ?a kw with _ => _ end] => destruct (dget a kw) end; rewrite ?Y by (cbn; auto); reflexivity. }
  destruct (C48_encryption_not_skipped E c _ req o alg H) as (enc & kid & t & jws & _ & D & _); [|exact T|].
  - right. split; [apply X; cbn; intuition discriminate|exact A].
  - rewrite X in D by (cbn; intuition discriminate). discriminate.
Qed.
Print Assumptions C48_encryption_impossible_refuted.
(** With a registered request_uri every login publishes its object under the same URL: the
    second one replaces the first, which its provider may not have fetched yet. *)
Theorem C48_second_login_replaces_object_refuted : forall fs c dir base r1 r2 fuel t1 t2 u1 u2 fs1 fs2 w r,
  dget "request_uris" (registration_response c) = Some (VList (VStr w :: r)) ->
  store_request_on_file fs c dir base r1 fuel t1 = (Ok u1, fs1) -> store_request_on_file fs1 c dir base r2 fuel t2 = (Ok u2, fs2) ->
  u1 = u2 /\ exists f, filename_from_webname (base_url c) u1 = Ok f /\ dget f fs1 = Some t1 /\ dget f fs2 = Some t2.
Proof.
  intros fs c dir base r1 r2 fuel t1 t2 u1 u2 fs1 fs2 w r R H1 H2.
  destruct (C48_reference_registered _ _ _ _ _ _ _ _ _ _ _ R H1) as (-> & f & F & D & _).
  destruct (C48_reference_registered _ _ _ _ _ _ _ _ _ _ _ R H2) as (-> & f' & F' & D' & _).
  rewrite F in F'. injection F' as <-. eauto 10.
Qed.
Print Assumptions C48_second_login_replaces_object_refuted.
(** The file is the one the provider named in its registration response: it can have any file
    overwritten. *)
Definition ro0 : ro_env := mkro (fun _ _ _ _ _ => Ok "object") (fun _ _ _ _ _ => Err OtherError) 0 (fun _ => "abcdefghij") 3.
Definition ro_ctx (uris : dict val) : ctx :=
  mkctx "https://op.example" "client" "" "https://rp.example" "" VNone ["https://rp.example/cb"] [] [] [("issuer", VStr "https://op.example")]
    uris [] [] [] [] [] [].
Theorem C48_provider_chooses_the_file_refuted :
  store_request_on_file [("/etc/passwd", "root")] (ro_ctx [("request_uris", strs ["https://rp.example//etc/passwd"])]) "./requests" "" (ro_rnd ro0) 3 "object"
  = (Ok "https://rp.example//etc/passwd", [("/etc/passwd", "object")]).
Proof. reflexivity. Qed.
Print Assumptions C48_provider_chooses_the_file_refuted.
Example ex_C48 : exists sent c', oidc_authz_post (mkobj_of ro0 [("./requests/abcdefghij.jwt", "old")])
    [("response_type", strs ["code"]); ("scope", strs ["openid"]); ("client_id", VStr "client"); ("redirect_uri", VStr "https://rp.example/cb");
     ("state", VStr "S"); ("nonce", VStr "N")] [("request_param", VStr "request_uri")] (ro_ctx []) = (Ok sent, c') /\
  dkeys sent = ["response_type"; "scope"; "client_id"; "redirect_uri"; "request_uri"] /\
  dget "request_uri" sent = Some (VStr "https://rp.example/requests/abcdefghij").
Proof. eexists. eexists. split; [vm_compute; reflexivity|]. split; reflexivity. Qed.

(** ** C49: joining URLs *)
Definition without_last_slash (s : string) : string := if ends_with "/" s then take (String.length s - 1) s else s.
Definition without_first_slash (s : string) : string := if starts_with "/" s then drop 1 s else s.
Theorem C49_exactly_one_slash : forall url path,
  add_path url path = (without_last_slash url ++ "/" ++ without_first_slash path)%string.
Proof.
  intros url path. unfold add_path, without_last_slash, without_first_slash.
  assert (U : ends_with "/" url = true -> url = (take (String.length url - 1) url ++ "/")%string).
  { intros E. apply ends_with_iff in E as [t ->]. rewrite slength_app. cbn [String.length]. replace (String.length t + 1 - 1) with (String.length t) by lia.
    f_equal. clear. induction t as [|c r IH]; cbn; [reflexivity|now rewrite <- IH]. }
  assert (Q : starts_with "/" path = true -> path = ("/" ++ drop 1 path)%string) by (intros E; now apply starts_with_inv in E).
  destruct (ends_with "/" url), (starts_with "/" path).
  - rewrite (U eq_refl) at 1. now rewrite sapp_assoc.
  - rewrite (U eq_refl) at 1. now rewrite sapp_assoc.
  - rewrite (Q eq_refl) at 1. reflexivity.
  - reflexivity.
Qed.
Print Assumptions C49_exactly_one_slash.
Theorem C49_slashes_do_not_matter : forall url path, ends_with "/" url = false -> starts_with "/" path = false ->
  add_path url path = (url ++ "/" ++ path)%string /\ add_path (url ++ "/") path = (url ++ "/" ++ path)%string /\
  add_path url ("/" ++ path) = (url ++ "/" ++ path)%string /\ add_path (url ++ "/") ("/" ++ path) = (url ++ "/" ++ path)%string.
Proof.
  intros url path U P. unfold add_path. rewrite U, P. rewrite starts_with_app.
  assert (E : ends_with "/" (url ++ "/") = true) by (apply ends_with_iff; eauto). rewrite E. rewrite !sapp_assoc. auto.
Qed.
Print Assumptions C49_slashes_do_not_matter.

(** ** C50: importable names *)
Theorem C50_dotted_name : forall modules attr, modules <> [] ->
  Forall (fun w => char_in "."%char w = false /\ char_in ":"%char w = false) (modules ++ [attr]) ->
  modsplit (join "." (modules ++ [attr])) = Ok (join "." modules, attr).
Proof.
  intros modules attr N F. unfold modsplit.
  assert (C : char_in ":"%char (join "." (modules ++ [attr])) = false).
  { assert (G : forall l, Forall (fun w => char_in "."%char w = false /\ char_in ":"%char w = false) l -> char_in ":"%char (join "." l) = false).
    { induction 1 as [|w r [_ W] Fr IH]; [reflexivity|]. cbn [join]. destruct r as [|w' r]; [exact W|]. rewrite !char_in_app, W, IH. reflexivity. }
    now apply G. }
  rewrite C. change "." with (String "."%char ""). rewrite split_join.
  - rewrite rev_app_distr. cbn [rev app]. destruct (rev modules) as [|x r] eqn:R.
    + exfalso. apply N. apply (f_equal (@rev string)) in R. now rewrite rev_involutive in R.
    + apply (f_equal (@rev string)) in R. rewrite rev_involutive in R. now rewrite R.
  - destruct modules; discriminate.
  - rewrite forallb_forall. rewrite Forall_forall in F. intros w I. destruct (F w I) as [-> _]. reflexivity.
Qed.
Print Assumptions C50_dotted_name.
Theorem C50_colon_name : forall m attr, char_in ":"%char m = false -> char_in ":"%char attr = false -> modsplit (m ++ ":" ++ attr) = Ok (m, attr).
Proof.
  intros m attr M A. unfold modsplit.
  assert (C : char_in ":"%char (m ++ ":" ++ attr) = true) by (rewrite !char_in_app, M, A; reflexivity). rewrite C.
  change (m ++ ":" ++ attr)%string with (join (String ":"%char "") [m; attr]). rewrite split_join; [reflexivity|discriminate|].
  cbn [forallb]. now rewrite M, A.
Qed.
Print Assumptions C50_colon_name.
(** a name with more than one colon is refused *)
Theorem C50_two_colons_are_refused : forall a b r, modsplit (a ++ ":" ++ b ++ ":" ++ r) = Err ValueError.
Proof.
  intros a b r. unfold modsplit. rewrite !char_in_app. change (char_in ":"%char ":") with true. rewrite !Bool.orb_true_r. cbv iota. cbn [orb]. cbv iota.
  change (":" ++ b ++ ":" ++ r)%string with (String ":"%char (b ++ String ":"%char r)). rewrite !split_on_app2.
  pose proof (split_on_nonnil ":"%char a). pose proof (split_on_nonnil ":"%char b). pose proof (split_on_nonnil ":"%char r).
  destruct (split_on ":"%char a) as [|x1 l1]; [easy|]. destruct (split_on ":"%char b) as [|x2 l2]; [easy|]. destruct (split_on ":"%char r) as [|x3 l3]; [easy|].
  destruct l1 as [|y l1]; cbn; [destruct l2; reflexivity|]. destruct l1; reflexivity.
Qed.
Print Assumptions C50_two_colons_are_refused.
Theorem C50_anything_else_is_refused : forall name, char_in ":"%char name = false -> char_in "."%char name = false -> modsplit name = Err ValueError.
Proof. intros name C D. unfold modsplit. rewrite C, split_on_nosep by exact D. reflexivity. Qed.
Print Assumptions C50_anything_else_is_refused.
