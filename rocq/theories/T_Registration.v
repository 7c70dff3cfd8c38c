(** Property theorems C30, C31, C32, C45: client registration. *)
From Verif Require Import Base BaseP Json JsonP Msg M_State S_State M_Ctx M_Codec M_Authz M_ClientAuth M_Service
  M_Token M_Handler M_Provider M_Registration S_Service S_Provider S_Registration P_Ctx P_Authz P_Service P_Wire P_Flow
  P_Provider P_Registration Ex.
From Coq Require Import Permutation.

(** ** C30 *)
(** exactly the grant types that some standard response type of the list needs, each once *)
Theorem C30_grant_types_as_prescribed : forall rts,
  NoDup (response_types_to_grant_types rts) /\
  forall g, In g (response_types_to_grant_types rts) <-> exists rt, In rt rts /\ standard (words rt) /\ needs (words rt) g.
Proof.
  intros rts. split; [apply grants_nodup|]. intros g. rewrite grants_spec. split.
  - intros (rt & H1 & H2). exists rt. rewrite <- grant_types_of_spec. auto.
  - intros (rt & H1 & H2). exists rt. rewrite grant_types_of_spec. auto.
Qed.
Print Assumptions C30_grant_types_as_prescribed.
(** the order of the words, the order of the response types and repetitions do not matter *)
Theorem C30_word_order_irrelevant : forall rts rts',
  (forall rt, In rt rts -> exists rt', In rt' rts' /\ Permutation (words rt) (words rt')) ->
  (forall rt', In rt' rts' -> exists rt, In rt rts /\ Permutation (words rt) (words rt')) ->
  Permutation (response_types_to_grant_types rts) (response_types_to_grant_types rts').
Proof.
  assert (X : forall ws vs g, Permutation ws vs -> standard ws /\ needs ws g -> standard vs /\ needs vs g).
  { intros ws vs g P [H1 H2]. split; [eapply standard_perm; [symmetry; exact P|exact H1]|].
    unfold needs in *. assert (I : forall x, In x ws -> In x vs) by (intros x; now apply Permutation_in).
    destruct H2 as [[? ?]|[? [?|?]]]; eauto. }
  intros rts rts' H H'. apply NoDup_Permutation; try apply grants_nodup. intros g.
  rewrite !grants_spec. split; intros (rt & I & G); apply grant_types_of_spec in G.
  - destruct (H rt I) as (rt' & I' & P). exists rt'. split; [exact I'|]. apply grant_types_of_spec. eapply X; eauto.
  - destruct (H' rt I) as (rt' & I' & P). exists rt'. split; [exact I'|]. apply grant_types_of_spec.
    eapply X; [symmetry; exact P|exact G].
Qed.
Print Assumptions C30_word_order_irrelevant.
(** what a registration request says *)
Theorem C30_registration_request_grant_types : forall sha seed vrf upd conf args kw c req c',
  NoDup (dkeys args) ->
  construct (registration_service sha seed vrf upd conf) args kw c = (Ok req, c') ->
  exists rts gs, (dget "response_types" req = Some (strs rts) \/ exists s, dget "response_types" req = Some (VStr s) /\ rts = [s])
                 /\ dget "grant_types" req = Some (strs gs) /\
                 (forall g, In g gs <-> exists rt, In rt rts /\ standard (words rt) /\ needs (words rt) g)
  \/ exists d, dget "response_types" req = Some (VDict d).
Proof.
  intros sha seed vrf upd conf args kw c req c' N H.
  apply reg_construct in H; [|exact N]. destruct H as (wp & out & req0 & _ & _ & G & No & Hn & Hf).
  pose proof (reg_msg_get _ _ No Hn "response_types") as Hrt.
  pose proof (reg_final_get _ _ Hf "response_types" ltac:(discriminate) ltac:(discriminate)) as Hsame.
  assert (exists v, dget "response_types" req0 = Some v) as [v Hv].
  { destruct (dget "response_types" out) as [w|]; [destruct (skipped w)|]; rewrite Hrt; eauto; cbn; eauto. }
  rewrite Hsame, Hv. unfold reg_final in Hf. rewrite Hv in Hf.
  destruct (grant_types_for v) as [gs|] eqn:Eg; cbn [rbind] in Hf; [|discriminate]. injection Hf as <-.
  assert (Hg : dget "grant_types" (if dhas "jwks_uri" (dset "grant_types" (strs gs) req0) && dhas "jwks" (dset "grant_types" (strs gs) req0)
    then ddel "jwks" (dset "grant_types" (strs gs) req0) else dset "grant_types" (strs gs) req0) = Some (strs gs)).
  { destruct (_ && _); [rewrite dget_ddel_neq by discriminate|]; apply dget_dset_eq. }
  rewrite Hg. unfold grant_types_for in Eg. destruct v as [| | |s|l|d]; try discriminate.
  - injection Eg as <-. exists [s], (response_types_to_grant_types [s]). left. split; [right; eauto|]. split; [reflexivity|].
    apply C30_grant_types_as_prescribed.
  - destruct (all_strs l) as [ws|] eqn:Ea; [|discriminate]. injection Eg as <-.
    exists ws, (response_types_to_grant_types ws). left. split; [left|].
    + f_equal. unfold strs. f_equal. clear - Ea. revert ws Ea. induction l as [|x l IH]; intros ws Ea; cbn in Ea.
      * injection Ea as <-. reflexivity.
      * destruct x; try discriminate. destruct (all_strs l); [|discriminate]. injection Ea as <-. cbn. now rewrite <- (IH l0 eq_refl).
    + split; [reflexivity|]. apply C30_grant_types_as_prescribed.
  - exists [], []. right. eauto.
Qed.
Print Assumptions C30_registration_request_grant_types.
Example C30_example : response_types_to_grant_types ["token id_token code"; "code"; "id_token"] = ["authorization_code"; "implicit"] /\
  response_types_to_grant_types ["token"; "code code"; "magic"; ""] = [] /\
  response_types_to_grant_types ["code"] = ["authorization_code"].
Proof. vm_compute. auto. Qed.

(** ** C31 *)
Theorem C31_never_both : forall sha seed vrf upd conf args kw c req c',
  NoDup (dkeys args) ->
  construct (registration_service sha seed vrf upd conf) args kw c = (Ok req, c') ->
  dget "jwks" req = None \/ dget "jwks_uri" req = None.
Proof.
  intros sha seed vrf upd conf args kw c req c' N H. apply reg_construct in H; [|exact N].
  destruct H as (wp & out & req0 & _ & _ & _ & No & Hn & Hf).
  rewrite (reg_final_jwks _ _ Hf), (reg_final_get _ _ Hf "jwks_uri") by discriminate.
  unfold dhas. destruct (dget "jwks_uri" req0); auto.
Qed.
Print Assumptions C31_never_both.
(** the body that is sent *)
Theorem C31_never_both_on_the_wire : forall E sha seed vrf upd conf args kw c i c',
  NoDup (dkeys args) ->
  get_request_parameters E (registration_service sha seed vrf upd conf) args "" "" "" kw c = (Ok i, c') ->
  i_method i = "POST" /\ exists text body, i_body i = Some (BText text) /\ json_loads text = Some (VDict body) /\
    (dget "jwks" body = None \/ dget "jwks_uri" body = None).
Proof.
  intros E sha seed vrf upd conf args kw c i c' N H. apply grp_inv in H. cbv zeta in H.
  change ("" =?s "") with true in H. cbv iota in H.
  change (s_authn (registration_service sha seed vrf upd conf) c) with "" in H.
  change (s_http_method (registration_service sha seed vrf upd conf)) with "POST" in H.
  change (s_req_type (registration_service sha seed vrf upd conf)) with "json" in H.
  destruct H as (req0 & c1 & h & req1 & ep & H1 & H2 & _ & Hm & Hr & _ & Hb).
  split; [exact Hm|]. change ("POST" =?s "POST") with true in Hb. destruct Hb as (b & Hb & Hib & _).
  pose proof (C31_never_both _ _ _ _ _ _ _ _ _ _ N H1) as B.
  assert (P : forall p, In p ["jwks"; "jwks_uri"] -> dget p req1 = dget p req0).
  { intros p Hp. eapply (get_headers_frame E (registration_service sha seed vrf upd conf)); [reflexivity|exact H2|].
    cbn in Hp. destruct Hp as [<-|[<-|[]]]; cbn; intuition discriminate. }
  exists (msg_to_json (sent_cls (registration_service sha seed vrf upd conf) "" req0) req1), (msg_to_dict (sent_cls (registration_service sha seed vrf upd conf) "" req0) req1).
  split; [rewrite Hib; f_equal; unfold get_http_body in Hb; cbn [contains body_content_type] in Hb; injection Hb as <-; reflexivity|].
  split; [apply json_roundtrip|].
  rewrite !ser_get. rewrite !P by (cbn; auto). destruct B as [->| ->]; [now left|now right].
Qed.
Print Assumptions C31_never_both_on_the_wire.
(** a known jwks_uri is what is published, even over a jwks of the caller *)
Theorem C31_reference_wins : forall sha seed vrf upd conf args kw c req c',
  NoDup (dkeys args) ->
  construct (registration_service sha seed vrf upd conf) args kw c = (Ok req, c') ->
  (forall u, u <> "" -> dget "jwks_uri" args = Some (VStr u) -> dget "jwks_uri" req = Some (VStr u) /\ dget "jwks" req = None) /\
  (dget "jwks_uri" args = None -> dget "jwks_uri" (behaviour c) = None -> dget "jwks_uri" (client_preferences c) = None ->
   jwks_uri c <> "" -> dget "jwks_uri" req = Some (VStr (jwks_uri c)) /\ dget "jwks" req = None).
Proof.
  intros sha seed vrf upd conf args kw c req c' N H. apply reg_construct2 in H; [|exact N].
  destruct H as ([cb Hc] & wu & out & req0 & Hu & G & No & Hn & Hf).
  rewrite (reg_final_jwks _ _ Hf), (reg_final_get _ _ Hf "jwks_uri") by discriminate.
  pose proof (reg_msg_get _ _ No Hn "jwks_uri") as Hj. unfold dhas.
  destruct (gather_spec (registration_service sha seed vrf upd conf) _ _ _ eq_refl G) as [_ S]. specialize (S "jwks_uri").
  destruct S as (S1 & S2 & _).
  specialize (Hu "jwks_uri" ltac:(cbn; intuition discriminate)).
  assert (Ej : jwks_uri c' = jwks_uri c) by (rewrite Hc; reflexivity).
  assert (R : forall u, u <> "" -> dget "jwks_uri" out = Some (VStr u) ->
    dget "jwks_uri" req0 = Some (VStr u) /\ (match dget "jwks_uri" req0 with Some _ => true | None => false end = true)).
  { intros u Hne Ho. rewrite Hj, Ho. cbn [skipped]. destruct u; [congruence|]. auto. }
  split.
  - intros u Hne Ha.
    assert (Ho : dget "jwks_uri" out = Some (VStr u)).
    { apply S1. unfold with_keys, dhas. rewrite Hu, Ha. rewrite dget_ddel_neq by discriminate.
      now rewrite Hu, Ha. }
    destruct (R u Hne Ho) as [-> _]. auto.
  - intros Ha Hb Hp Hne.
    assert (Hw : dget "jwks_uri" wu = None).
    { rewrite Hu, Ha, Hb, Hp. now destruct (mem_str _ _). }
    assert (T : truthy (VStr (jwks_uri c)) = true) by (cbn; destruct (String.eqb_spec (jwks_uri c) ""); [congruence|reflexivity]).
    assert (Ho : dget "jwks_uri" out = Some (VStr (jwks_uri c))).
    { unfold with_keys, dhas in S1, S2. rewrite Hw in S1, S2.
      destruct (dget "jwks" wu) as [j|] eqn:Ejw.
      - specialize (S2 Hw). specialize (S2 ltac:(cbn; tauto)).
        change (ctx_get c' "jwks_uri") with (Some (VStr (jwks_uri c'))) in S2. rewrite Ej in S2.
        inversion S2; subst; congruence.
      - apply S1. unfold key_attr. change ("jwks_uri" =?s "jwks_uri") with true. cbv iota. rewrite Ej, T. apply dget_dset_eq. }
    destruct (R _ Hne Ho) as [-> _]. auto.
Qed.
Print Assumptions C31_reference_wins.
(** without any jwks_uri the keys are published by value, the caller's if given *)
Theorem C31_value_without_reference : forall sha seed vrf upd conf args kw c req c',
  NoDup (dkeys args) ->
  construct (registration_service sha seed vrf upd conf) args kw c = (Ok req, c') ->
  dget "jwks_uri" args = None -> dget "jwks_uri" (behaviour c) = None -> dget "jwks_uri" (client_preferences c) = None ->
  jwks_uri c = "" -> dget "jwks_uri" (config c) = None -> dget "jwks_uri" (register_args c) = None ->
  service_setting (registration_service sha seed vrf upd conf) "jwks_uri" = None ->
  dget "jwks_uri" req = None /\
  (forall j, skipped j = false -> dget "jwks" args = Some j -> dget "jwks" req = Some j) /\
  (dget "jwks" args = None -> dget "jwks" (behaviour c) = None -> dget "jwks" (client_preferences c) = None ->
   truthy (jwks c) = true -> skipped (jwks c) = false -> dget "jwks" req = Some (jwks c)).
Proof.
  intros sha seed vrf upd conf args kw c req c' N H Ha Hb Hp Hju Hcf Hra Hcr. apply reg_construct2 in H; [|exact N].
  destruct H as ([cb Hc] & wu & out & req0 & Hu & G & No & Hn & Hf).
  rewrite (reg_final_jwks _ _ Hf), (reg_final_get _ _ Hf "jwks_uri") by discriminate.
  destruct (gather_spec (registration_service sha seed vrf upd conf) _ _ _ eq_refl G) as [_ S].
  pose proof (S "jwks_uri") as (_ & S2 & _). pose proof (S "jwks") as (S1 & _ & _). clear S.
  assert (Hw : dget "jwks_uri" wu = None).
  { rewrite Hu by (cbn; intuition discriminate). rewrite Ha, Hb, Hp. now destruct (mem_str _ _). }
  pose proof (Hu "jwks" ltac:(cbn; intuition discriminate)) as Hwj.
  assert (Ej : jwks_uri c' = jwks_uri c /\ config c' = config c /\ jwks c' = jwks c /\ register_args c' = register_args c /\ behaviour c' = behaviour c)
    by (rewrite Hc; auto).
  destruct Ej as (Ej1 & Ej2 & Ej3 & Ej4 & Ej5).
  assert (Ka : key_attr c' "jwks_uri" = None).
  { unfold key_attr. change ("jwks_uri" =?s "jwks_uri") with true. cbv iota. rewrite Ej1, Ej2, Hju. exact Hcf. }
  assert (Wk : dget "jwks_uri" (with_keys c' wu) = None).
  { unfold with_keys, dhas. rewrite Hw. destruct (dget "jwks" wu); [exact Hw|]. rewrite Ka.
    destruct (key_attr c' "jwks"); [rewrite dget_dset_neq by discriminate|]; exact Hw. }
  assert (Ho : dget "jwks_uri" out = None).
  { specialize (S2 Wk ltac:(cbn; tauto)).
    assert (Hcr' : dget "jwks_uri" (conf_request_args (registration_service sha seed vrf upd conf)) = None).
    { revert Hcr. unfold service_setting, conf_request_args. destruct (dget "request_args" (s_conf _)) as [[]|]; auto. }
    change (ctx_get c' "jwks_uri") with (Some (VStr (jwks_uri c'))) in S2. rewrite Ej1, Hju, Ej4, Hra, Hcr', Ej5, Hb in S2.
    change (dget "jwks_uri" (s_defaults (registration_service sha seed vrf upd conf))) with (@None val) in S2.
    repeat match goal with H : first_usable _ _ |- _ => inversion H; subst; clear H end; try discriminate; auto. }
  assert (Hr0 : dget "jwks_uri" req0 = None) by (rewrite (reg_msg_get _ _ No Hn), Ho; reflexivity).
  unfold dhas. rewrite Hr0. split; [reflexivity|]. split.
  - intros j Hs Hj. rewrite (reg_msg_get _ _ No Hn).
    assert (W : dget "jwks" wu = Some j) by (rewrite Hwj, Hj; reflexivity).
    rewrite (S1 j); [now rewrite Hs|]. unfold with_keys, dhas. now rewrite Hw, W.
  - intros Hj1 Hj2 Hj3 Ht Hs. rewrite (reg_msg_get _ _ No Hn).
    assert (W : dget "jwks" wu = None).
    { rewrite Hwj, Hj1, Hj2, Hj3. now destruct (mem_str _ _). }
    rewrite (S1 (jwks c)); [now rewrite Hs|]. unfold with_keys, dhas. rewrite Hw, W, Ka.
    unfold key_attr. change ("jwks" =?s "jwks_uri") with false. cbv iota. rewrite Ej3, Ht. apply dget_dset_eq.
Qed.
Print Assumptions C31_value_without_reference.
Definition ex_reg : service := registration_service (fun s => ("h(" ++ s ++ ")")%string) "seed:" (fun _ m => Ok m) registration_update [].
Definition ex_regctx (uri : string) (jw : val) (cfg : dict val) : ctx :=
  mkctx "https://op.example" "" "" "https://rp.example" uri jw [] [] [] ex_provider [] [] [] cfg [] [] [].
Example C31_example : exists req c', construct ex_reg [("jwks", VDict [("keys", VList [])]); ("redirect_uris", strs ["https://rp.example/cb"])] []
    (ex_regctx "https://rp.example/jwks.json" (VDict []) []) = (Ok req, c') /\
  dget "jwks_uri" req = Some (VStr "https://rp.example/jwks.json") /\ dget "jwks" req = None.
Proof. eexists _, _. split; [vm_compute; reflexivity|]. vm_compute. auto. Qed.

(** ** C32 *)
(** the URLs of a callback dictionary *)
Definition callback_url (d : dict val) (u : string) : Prop :=
  exists k v, In (k, v) d /\ k <> "__hex" /\ (v = VStr u \/ exists l, v = VList l /\ In (VStr u) l).
Lemma callback_urls sha seed ig c u : callback_url (callback (add_callbacks sha seed ig c)) u ->
  exists p, In p ["authz_cb"; "authz_im_cb"; "authz_fp_cb"; "req_uri"; "session_logout"; "bc_logout"; "fc_logout"] /\
    u = (base_url c ++ "/" ++ p ++ "/" ++ sha (seed ++ issuer c))%string.
Proof.
  intros (k & v & Hi & Hk & Hv). unfold add_callbacks, callback, set_callback in Hi.
  set (cbs := create_callbacks _ _ _) in Hi.
  assert (X : In (k, v) cbs -> exists p, In p ["authz_cb"; "authz_im_cb"; "authz_fp_cb"; "req_uri"; "session_logout"; "bc_logout"; "fc_logout"] /\
    u = (base_url c ++ "/" ++ p ++ "/" ++ sha (seed ++ issuer c))%string).
  { intros H. apply cbs_In in H. destruct H as [H|(p & Hp & H)]; [contradiction|]. exists p. split; [exact Hp|].
    destruct H as [-> | ->]; destruct Hv as [Hv|(l & Hv & Hl)]; try discriminate; injection Hv as <-; [reflexivity|].
    destruct Hl as [Hl|[]]. now injection Hl as <-. }
  destruct (mem_str "redirect_uris" ig); [now apply X|].
  assert (Y : forall d : dict val, In (k, v) (dset "redirect_uris" (VList (redirect_list cbs)) d) ->
    (k = "redirect_uris" /\ v = VList (redirect_list cbs)) \/ In (k, v) d).
  { induction d as [|[k' v'] d IH]; cbn [dset].
    - intros [H|[]]. injection H as <- <-. auto.
    - destruct (String.eqb_spec k' "redirect_uris") as [->|Hne]; intros [H|H].
      + injection H as <- <-. auto.
      + right. now right.
      + right. now left.
      + destruct (IH H) as [?|?]; [now left|right; now right]. }
  apply Y in Hi. destruct Hi as [[-> Ev]|Hi]; [|now apply X].
  destruct Hv as [Hv|(l & Hv & Hl)]; [congruence|]. rewrite Ev in Hv. injection Hv as <-.
  apply in_map_iff in Hl. destruct Hl as ([k1 v1] & Hv1 & Hf). cbn [snd] in Hv1. subst v1. apply filter_In in Hf. destruct Hf as [Hf Hm].
  apply cbs_In in Hf. destruct Hf as [->|(p & Hp & [H|H])]; [discriminate Hm| |discriminate].
  exists p. split; [exact Hp|]. congruence.
Qed.
(** every callback is the base URL, one slash, a path, one slash and the issuer's hash *)
Theorem C32_callbacks_under_base_url : forall sha seed ignore c u,
  callback_url (callback (add_callbacks sha seed ignore c)) u ->
  exists p, p <> "" /\ char_in "/"%char p = false /\ u = (base_url c ++ "/" ++ p ++ "/" ++ sha (seed ++ issuer c))%string.
Proof.
  intros sha seed ig c u H. destruct (callback_urls _ _ _ _ _ H) as (p & Hp & ->). exists p.
  cbn [In] in Hp. repeat (destruct Hp as [<-|Hp]; [repeat split; discriminate|]). destruct Hp.
Qed.
Print Assumptions C32_callbacks_under_base_url.
(** different issuers have no callback in common, unless the hash collides *)
Theorem C32_callbacks_issuer_specific : forall sha seed ignore1 ignore2 c1 c2 u,
  base_url c1 = base_url c2 -> sha (seed ++ issuer c1)%string <> sha (seed ++ issuer c2)%string ->
  callback_url (callback (add_callbacks sha seed ignore1 c1)) u -> ~ callback_url (callback (add_callbacks sha seed ignore2 c2)) u.
Proof.
  intros sha seed ig1 ig2 c1 c2 u Hb Hh H1 H2.
  destruct (C32_callbacks_under_base_url _ _ _ _ _ H1) as (p & _ & Hp & ->).
  destruct (C32_callbacks_under_base_url _ _ _ _ _ H2) as (q & _ & Hq & E).
  rewrite Hb in E. apply sapp_inj_l, sapp_inj_l in E.
  change ("/" ++ sha (seed ++ issuer c1))%string with (String "/" (sha (seed ++ issuer c1)))%string in E.
  change ("/" ++ sha (seed ++ issuer c2))%string with (String "/" (sha (seed ++ issuer c2)))%string in E.
  apply (f_equal (split1 "/"%char)) in E. rewrite !split1_at in E by assumption. congruence.
Qed.
Print Assumptions C32_callbacks_issuer_specific.

(** a configured response type gets a redirect URI that is both registered and selected *)
Theorem C32_callbacks_usable : forall sha seed vrf upd conf args kw c req c',
  NoDup (dkeys args) ->
  construct (registration_service sha seed vrf upd conf) args kw c = (Ok req, c') ->
  dget "redirect_uris" args = None -> dget "redirect_uris" (behaviour c) = None -> dget "redirect_uris" (client_preferences c) = None ->
  dget "redirect_uris" (register_args c) = None -> redirect_uris c = [] ->
  forall rt a, dget "redirect_uri" a = None ->
    (configured (config c) "response_types" (VStr rt) /\ In rt ["code"; "id_token"; "id_token token"; "code id_token token"; "code token"] /\
     dget "response_mode" a <> Some (VStr "form_post"))
    \/ (configured (config c) "form_post_usable" (VBool true) /\ rt <> "" /\ dget "response_mode" a = Some (VStr "form_post")) ->
  exists u l, pick_redirect_uri c' (Some a) (Some (VStr rt)) = Ok (VStr u) /\
    dget "redirect_uris" req = Some (VList l) /\ In (VStr u) l.
Proof.
  intros sha seed vrf upd conf args kw c req c' N H Ha Hb Hp Hr Hru rt a Hna Hcase. apply reg_construct3 in H; auto.
  destruct H as (ig & out & req0 & Hig & Hff & Hc & Ho & No & Hn & Hf).
  set (cbs := create_callbacks (sha (seed ++ issuer c)%string) (base_url c) (wanted_uris c ig)).
  assert (Ecb : callback c' = dset "redirect_uris" (VList (redirect_list cbs)) cbs).
  { rewrite Hc. unfold add_callbacks, set_callback, callback. rewrite Hig. reflexivity. }
  assert (Hcru : redirect_uris c' = []) by (rewrite Hc; exact Hru).
  (* the callback that is selected *)
  assert (K : exists k u, In k ["code"; "implicit"; "form_post"] /\ dget k cbs = Some (VStr u) /\ u <> "" /\
     pick_redirect_uri c' (Some a) (Some (VStr rt)) = Ok (VStr u)).
  { assert (P : forall k u, In k ["code"; "implicit"; "form_post"] -> dget k cbs = Some (VStr u) -> rt <> "" ->
      (if wants_form_post a (VStr rt) then "form_post" else if wants_code (VStr rt) then "code" else "implicit") = k ->
      pick_redirect_uri c' (Some a) (Some (VStr rt)) = Ok (VStr u)).
    { intros k u Hk Hu Hrt Hsel. rewrite pick_callback; auto.
      - rewrite Hsel. unfold dict_get. rewrite Ecb, dget_dset_neq by (intros <-; cbn in Hk; intuition discriminate). now rewrite Hu.
      - rewrite Ecb. intros E. apply (f_equal (dget "redirect_uris")) in E. rewrite dget_dset_eq in E. discriminate.
      - cbn. destruct (String.eqb_spec rt ""); [contradiction|reflexivity]. }
    destruct Hcase as [(Hcf & Hrt & Hmode)|(Hcf & Hrt & Hmode)].
    - assert (Hfp : wants_form_post a (VStr rt) = false).
      { unfold wants_form_post. destruct (dget "response_mode" a) as [m|]; [|reflexivity].
        destruct (val_eqb m (VStr "form_post")) eqn:E; [|reflexivity]. apply val_eqb_eq in E. congruence. }
      assert (Hne : rt <> "") by (intros ->; cbn in Hrt; intuition discriminate).
      apply configured_spec in Hcf.
      destruct (String.eqb_spec rt "code") as [->|Hnc].
      + exists "code", (base_url c ++ "/" ++ "authz_cb" ++ "/" ++ sha (seed ++ issuer c))%string.
        assert (Hg : dget "code" cbs = Some (cb_url sha seed c "authz_cb")).
        { unfold cbs. rewrite cbs_get. cbv zeta. unfold wanted_uris, u_code. rewrite Hig, Hcf. reflexivity. }
        split; [now left|]. split; [exact Hg|]. split.
        * destruct (base_url c); discriminate.
        * eapply P; [|exact Hg|exact Hne|]; [now left|]. now rewrite Hfp.
      + exists "implicit", (base_url c ++ "/" ++ "authz_im_cb" ++ "/" ++ sha (seed ++ issuer c))%string.
        assert (Hg : dget "implicit" cbs = Some (cb_url sha seed c "authz_im_cb")).
        { unfold cbs. rewrite cbs_get. cbv zeta. unfold wanted_uris, u_implicit. rewrite Hig.
          assert (Ex : existsb (fun rt => in_config_or_preferences (config c) "response_types" (VStr rt)) implicit_types = true).
          { apply existsb_exists. exists rt. split; [|exact Hcf]. cbn in Hrt |- *. intuition congruence. }
          rewrite Ex. reflexivity. }
        split; [right; now left|]. split; [exact Hg|]. split.
        * destruct (base_url c); discriminate.
        * eapply P; [|exact Hg|exact Hne|]; [right; now left|]. rewrite Hfp. unfold wants_code. cbn [val_eqb].
          now rewrite (eqb_neq rt "code").
    - assert (Hfp : wants_form_post a (VStr rt) = true) by (unfold wants_form_post; rewrite Hmode; reflexivity).
      apply configured_spec in Hcf.
      exists "form_post", (base_url c ++ "/" ++ "authz_fp_cb" ++ "/" ++ sha (seed ++ issuer c))%string.
      assert (Hg : dget "form_post" cbs = Some (cb_url sha seed c "authz_fp_cb")).
      { unfold cbs. rewrite cbs_get. cbv zeta. unfold wanted_uris, u_form_post. rewrite Hff, Hcf. reflexivity. }
      split; [right; right; now left|]. split; [exact Hg|]. split.
      + destruct (base_url c); discriminate.
      + eapply P; [|exact Hg|exact Hrt|]; [right; right; now left|]. now rewrite Hfp. }
  destruct K as (k & u & Hk & Hu & Hne & Hpick). exists u, (redirect_list cbs). split; [exact Hpick|].
  pose proof (redirect_list_In _ _ _ Hu Hk) as Hin.
  split; [|exact Hin].
  rewrite (reg_final_get _ _ Hf) by discriminate. rewrite (reg_msg_get _ _ No Hn).
  assert (Ht : truthy (VList (redirect_list cbs)) = true) by (destruct (redirect_list cbs); [destruct Hin|reflexivity]).
  rewrite (Ho (VList (redirect_list cbs))); [|rewrite Ecb; apply dget_dset_eq|exact Ht].
  assert (Hs : skipped (VList (redirect_list cbs)) = false).
  { destruct (redirect_list cbs) as [|x [|y l]]; [destruct Hin| |now destruct x as [| | |[]| |]].
    destruct Hin as [->|[]]. cbn. destruct u; [congruence|reflexivity]. }
  now rewrite Hs.
Qed.
Print Assumptions C32_callbacks_usable.
Definition ex_cfg (rts : list string) : dict val := [("client_preferences", VDict [("response_types", strs rts)]); ("form_post_usable", VBool true)].
Example C32_example : exists req c', construct ex_reg [] [] (ex_regctx "" (VDict []) (ex_cfg ["code"; "id_token token"])) = (Ok req, c') /\
  pick_redirect_uri c' (Some []) (Some (VStr "id_token token")) = Ok (VStr "https://rp.example/authz_im_cb/h(seed:https://op.example)") /\
  dget "redirect_uris" req = Some (strs ["https://rp.example/authz_cb/h(seed:https://op.example)";
     "https://rp.example/authz_im_cb/h(seed:https://op.example)"; "https://rp.example/authz_fp_cb/h(seed:https://op.example)"]).
Proof. eexists _, _. split; [vm_compute; reflexivity|]. split; vm_compute; reflexivity. Qed.
(** finding: the hybrid type 'code id_token' gets no callback (registration.py 130 misspells it) *)
Theorem C32_code_id_token_unusable_refuted : exists req c',
  construct ex_reg [] [] (ex_regctx "" (VDict []) [("response_types", strs ["code id_token"])]) = (Ok req, c') /\
  dget "redirect_uris" req = None /\ pick_redirect_uri c' (Some []) (Some (VStr "code id_token")) = Err (KeyError "implicit").
Proof. eexists _, _. split; [vm_compute; reflexivity|]. split; vm_compute; reflexivity. Qed.
Print Assumptions C32_code_id_token_unusable_refuted.
(** finding: redirect URIs given for registration are registered but cannot be selected *)
Theorem C32_callers_redirect_uris_not_selected_refuted : exists req c',
  construct ex_reg [("redirect_uris", strs ["https://rp.example/mine"])] [] (ex_regctx "" (VDict []) [("response_types", strs ["code"])]) = (Ok req, c') /\
  dget "redirect_uris" req = Some (strs ["https://rp.example/mine"]) /\
  pick_redirect_uri c' (Some []) (Some (VStr "code")) = Err (KeyError "code").
Proof. eexists _, _. split; [vm_compute; reflexivity|]. split; vm_compute; reflexivity. Qed.
Print Assumptions C32_callers_redirect_uris_not_selected_refuted.
(** request URIs: issuer specific too *)
Theorem C32_request_uris_issuer_specific : forall sha path c1 c2 i1 i2,
  base_url c1 = base_url c2 -> dget "issuer" (provider_info c1) = Some (VStr i1) -> dget "issuer" (provider_info c2) = Some (VStr i2) ->
  sha (i1 ++ base_url c1)%string <> sha (i2 ++ base_url c2)%string ->
  exists u1 u2, fst (generate_request_uris sha path c1) = [u1] /\ fst (generate_request_uris sha path c2) = [u2] /\ u1 <> u2 /\
    redirect_uris (snd (generate_request_uris sha path c1)) = [u1] /\ starts_with (base_url c1 ++ "/") u1 = true.
Proof.
  intros sha path c1 c2 i1 i2 Hb H1 H2 Hn. unfold generate_request_uris. rewrite H1, H2. cbn [fst snd].
  eexists _, _. split; [reflexivity|]. split; [reflexivity|]. split; [|split; [reflexivity|]].
  - rewrite <- Hb in *. intros E. destruct (starts_with "/" path).
    + apply sapp_inj_l, sapp_inj_l, sapp_inj_l in E. contradiction.
    + do 4 apply sapp_inj_l in E. contradiction.
  - destruct (starts_with "/" path) eqn:E.
    + apply starts_with_inv in E. rewrite E. rewrite <- !sapp_assoc. rewrite !(sapp_assoc (base_url c1 ++ "/")%string). apply starts_with_app.
    + rewrite <- (sapp_assoc (base_url c1) "/"). apply starts_with_app.
Qed.
Print Assumptions C32_request_uris_issuer_specific.

(** ** C45 *)
(** everything the response may change, and nothing else *)
Theorem C45_response_adopted : forall resp r resp' r', adopt_registration resp r = (resp', r') ->
  let c := r_ctx r in let c' := r_ctx r' in
  (* the response is kept, with the default authentication method of the standard *)
  registration_response c' = resp' /\
  (forall k v, dget k resp = Some v -> dget k resp' = Some v) /\
  (forall k, k <> "token_endpoint_auth_method" -> dget k resp' = dget k resp) /\
  (dget "token_endpoint_auth_method" resp = None -> dget "token_endpoint_auth_method" resp' = Some (VStr "client_secret_basic")) /\
  (* identity and secret *)
  (forall id, dget "client_id" resp = Some (VStr id) -> id <> "" ->
     client_id c' = id /\
     (forall s, dget "client_secret" resp = Some (VStr s) -> s <> "" ->
        client_secret c' = s /\ r_keys r' = own_keys_also_as id (r_keys r) ++ [("", SSecret s); (id, SSecret s)] /\
        r_expires_at r' = match dget "client_secret_expires_at" resp with Some v => v | None => r_expires_at r end) /\
     (dget "client_secret" resp = None -> client_secret c' = client_secret c /\ r_keys r' = own_keys_also_as id (r_keys r) /\ r_expires_at r' = r_expires_at r)) /\
  (dget "client_id" resp = None -> client_id c' = client_id c /\ client_secret c' = client_secret c /\ r_keys r' = r_keys r) /\
  (* registration access token *)
  (forall t, dget "registration_access_token" resp = Some t -> r_access_token r' = Some t) /\
  (dget "registration_access_token" resp = None -> r_access_token r' = r_access_token r) /\
  (* the rest of the context *)
  issuer c' = issuer c /\ base_url c' = base_url c /\ callback c' = callback c /\ provider_info c' = provider_info c /\
  behaviour c' = behaviour c /\ redirect_uris c' = redirect_uris c /\ sdb c' = sdb c.
Proof.
  intros resp r resp' r' H. cbv zeta. unfold adopt_registration in H.
  set (re := dsetdefault "token_endpoint_auth_method" (VStr "client_secret_basic") resp) in H.
  assert (G : forall k, k <> "token_endpoint_auth_method" -> dget k re = dget k resp).
  { intros k Hk. unfold re, dsetdefault. destruct (dhas _ resp); [reflexivity|]. apply dget_dset_neq. congruence. }
  assert (G2 : forall k v, dget k resp = Some v -> dget k re = Some v).
  { intros k v Hv. unfold re, dsetdefault. destruct (dhas "token_endpoint_auth_method" resp) eqn:E; [exact Hv|].
    rewrite dget_dset_neq; [exact Hv|]. intros <-. unfold dhas in E. rewrite Hv in E. discriminate. }
  assert (G3 : dget "token_endpoint_auth_method" resp = None -> dget "token_endpoint_auth_method" re = Some (VStr "client_secret_basic")).
  { intros E. unfold re, dsetdefault, dhas. rewrite E. apply dget_dset_eq. }
  clearbody re. rewrite !(G "client_id"), !(G "client_secret"), !(G "client_secret_expires_at"), !(G "registration_access_token") in H by discriminate.
  apply pair_inv in H. destruct H as [<- <-].
  set (r1 := if str_of (dget "client_id" resp) =?s "" then _ else _).
  assert (R : r_ctx (match dget "registration_access_token" resp with Some t => mkr (r_ctx r1) (r_expires_at r1) (Some t) (r_keys r1) | None => r1 end) = r_ctx r1 /\
    r_keys (match dget "registration_access_token" resp with Some t => mkr (r_ctx r1) (r_expires_at r1) (Some t) (r_keys r1) | None => r1 end) = r_keys r1 /\
    r_expires_at (match dget "registration_access_token" resp with Some t => mkr (r_ctx r1) (r_expires_at r1) (Some t) (r_keys r1) | None => r1 end) = r_expires_at r1)
    by (destruct (dget "registration_access_token" resp); auto).
  destruct R as (-> & -> & ->).
  assert (T : r_access_token r1 = r_access_token r) by (unfold r1; destruct (str_of (dget "client_id" resp) =?s ""); [|destruct (str_of (dget "client_secret" resp) =?s "")]; reflexivity).
  split; [unfold r1; destruct (str_of (dget "client_id" resp) =?s ""); [|destruct (str_of (dget "client_secret" resp) =?s "")]; reflexivity|].
  split; [exact G2|]. split; [exact G|]. split; [exact G3|].
  split.
  { intros id Hid Hne. unfold r1. rewrite Hid. cbn [str_of]. rewrite (eqb_neq id "") by exact Hne. split.
    { destruct (str_of (dget "client_secret" resp) =?s ""); reflexivity. }
    split.
    - intros s Hs Hsne. rewrite Hs. cbn [str_of]. rewrite (eqb_neq s "") by exact Hsne. auto.
    - intros ->. cbn [str_of]. rewrite eqb_refl. auto. }
  split.
  { intros Hid. unfold r1. rewrite Hid. cbn [str_of]. rewrite eqb_refl. auto. }
  split; [intros t ->; reflexivity|]. split; [intros ->; exact T|].
  unfold r1. destruct (str_of (dget "client_id" resp) =?s ""); [|destruct (str_of (dget "client_secret" resp) =?s "")]; repeat split; reflexivity.
Qed.
Print Assumptions C45_response_adopted.
(** registering through the client: an accepted answer is adopted; an error answer or an
    exception leaves credentials as they were; a client with an identity does not register *)
Theorem C45_registering : forall W cl sha seed args c r c',
  load_registration_response W cl sha seed args c = (r, c') ->
  (client_id c <> "" -> r = Ok tt /\ c' = c) /\
  (client_id c = "" ->
     (client_id c' = client_id c /\ client_secret c' = client_secret c /\ registration_response c' = registration_response c) \/
     exists m c1, dhas "error" m = false /\ verified_ok (registration_service sha seed (e_vrf W "registration") registration_update (conf_of cl "registration")) c1 /\
       client_id c1 = client_id c /\ client_secret c1 = client_secret c /\ registration_update m "" c1 = (Ok (fst (adopt_registration m (mkr c1 (VInt 0) None []))), c') /\ r = Ok tt).
Proof.
  intros W cl sha seed args c r c' H. unfold load_registration_response in H. split.
  - intros Hne. rewrite (eqb_neq (client_id c) "") in H by exact Hne. now injection H as <- <-.
  - intros He. rewrite He, eqb_refl in H.
    set (s := registration_service sha seed (e_vrf W "registration") registration_update (conf_of cl "registration")) in *.
    destruct (do_request_named W cl s args "" [] c) as [r0 c1] eqn:E.
    assert (Ec : c' = c1 /\ (r = Ok tt -> exists x, r0 = Ok x /\ has_error x = false)).
    { destruct r0 as [x|e].
      - injection H as <- <-. split; [reflexivity|]. destruct (has_error x) eqn:E1; [discriminate|eauto].
      - destruct e; injection H as <- <-; split; auto; discriminate. }
    destruct Ec as [-> _]. unfold do_request_named in E. destruct (has_service cl (s_name s)); [|injection E as <- <-; auto].
    apply do_request_inv in E.
    assert (F : forall i c2, get_request_parameters (e_authn W) s args "" "" "" [] c = (i, c2) ->
      client_id c2 = client_id c /\ client_secret c2 = client_secret c /\ registration_response c2 = registration_response c).
    { intros i c2 Hg. assert (K : keeps (get_request_parameters (e_authn W) s args "" "" "" [])).
      { apply keeps_grp; [reflexivity|]. apply keeps_reg_construct. }
      specialize (K c). rewrite Hg in K. exact K. }
    destruct E as [(e & Hg & ->)|(i & c2 & Hg & Hs)].
    + left. exact (F _ _ Hg).
    + destruct (F _ _ Hg) as (F1 & F2 & F3).
      pose proof (service_request_changes _ _ _ _ _ _ _ _ _ _ _ _ Hs) as V.
      apply service_request_spec in Hs; [|intros ? ? ? ? ? X; change (s_post_parse s) with pass in X; unfold pass, ret in X; congruence].
      destruct Hs as [[-> _]|(resp & m & Hh & Herr & Hacc & r1 & Hu & Hr)]; [left; auto|].
      right. exists m, c2. split; [exact Herr|].
      assert (Va : verified_ok s c2).
      { destruct Hacc as [(_ & m0 & v & st & Ha & Hb & _)|(_ & m1 & (m0 & v & st & Ha & Hb & _) & _)]; exists m0, v; auto. }
      split; [exact Va|]. split; [exact F1|]. split; [exact F2|].
      change (s_update s) with registration_update in Hu. unfold registration_update in Hu |- *.
      destruct (adopt_registration m (mkr c2 (VInt 0) None [])) as [m' r'] eqn:Ea. cbn [fst].
      apply pair_inv in Hu. destruct Hu as [<- <-]. split; [reflexivity|]. subst r0.
      assert (Er : has_error (RMsg m') = false).
      { destruct (C45_response_adopted _ _ _ _ Ea) as (_ & _ & G & _). unfold has_error, dhas in *. now rewrite (G "error") by discriminate. }
      rewrite Er in H. congruence.
Qed.
Print Assumptions C45_registering.
Example C45_example :
  let '(m, r) := adopt_registration [("client_id", VStr "c1"); ("client_secret", VStr "s1"); ("registration_access_token", VStr "rat");
                                     ("registration_client_uri", VStr "https://op.example/reg?c1")] (mkr ex_ctx (VInt 0) None []) in
  client_id (r_ctx r) = "c1" /\ client_secret (r_ctx r) = "s1" /\ r_access_token r = Some (VStr "rat") /\
  dget "token_endpoint_auth_method" (registration_response (r_ctx r)) = Some (VStr "client_secret_basic").
Proof. vm_compute. auto. Qed.
(** finding: the redirect URIs and the authentication method the provider registered are
    stored with the response but not used: selection and authentication stay as they were *)
Theorem C45_registered_uris_and_method_unused_refuted : forall W cl u c,
  let r' := snd (adopt_registration [("client_id", VStr "c1"); ("redirect_uris", VList [VStr u]); ("token_endpoint_auth_method", VStr "private_key_jwt")]
                   (mkr c (VInt 0) None [])) in
  (forall a rt, pick_redirect_uri (r_ctx r') a rt = pick_redirect_uri c a rt) /\
  s_authn (token_svc W cl) (r_ctx r') = s_authn (token_svc W cl) c.
Proof.
  intros W cl u c. cbv zeta. split; [reflexivity|]. unfold token_svc. destruct (cl_pkce cl); reflexivity.
Qed.
Print Assumptions C45_registered_uris_and_method_unused_refuted.
(** reading the registration: at the URI and with the token the provider gave *)
Theorem C45_reading_the_registration : forall c u t,
  dget "registration_client_uri" (registration_response c) = Some (VStr u) ->
  dget "registration_access_token" (registration_response c) = Some (VStr t) ->
  read_registration_request "" c = Ok (VStr u, [("Authorization", ("Bearer " ++ t)%string)]).
Proof. intros c u t Hu Ht. unfold read_registration_request, read_authn_header, read_endpoint, dict_get. now rewrite Hu, Ht. Qed.
Print Assumptions C45_reading_the_registration.
Theorem C45_no_registration_token_no_reading : forall c,
  dget "registration_access_token" (registration_response c) = None ->
  read_registration_request "" c = Err (KeyError "registration_access_token").
Proof. intros c Ht. unfold read_registration_request, read_authn_header, dict_get. now rewrite Ht. Qed.
Print Assumptions C45_no_registration_token_no_reading.
