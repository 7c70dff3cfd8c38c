(** Property theorems C68: whose keys are used.
    Model in M_Keys.v (and M_Provider.v, M_Registration.v), specification in S_Keys.v, proofs in P_Keys.v. *)
From Verif Require Import Base BaseP Json JsonP Msg M_State M_Ctx M_Codec M_Authz M_ClientAuth M_Service M_Token M_Handler
  S_Service S_Provider M_Provider M_Registration M_WebFinger M_Setup M_ReqObj M_Keys S_Keys P_Ctx P_Service P_Provider P_Registration P_Setup
  S_Handler S_Setup T_Provider T_Registration P_Keys T_Setup Ex.

(** the contexts of a set-up: with the provider's information, and after registration *)
Definition informed (W : env) (t : temp) (j : jar) : ctx :=
  p_ctx (snd (do_provider_info W (mkp (cl_ctx (tm_client t)) (tm_eps t) j))).
Definition registered (W : env) (H : hconf) (beh : dict val) (t : temp) (j : jar) : ctx :=
  snd (load_registration_response W (tm_client t) (hc_sha H) (hc_seed H)
         (filter (fun kv => dhas (fst kv) registration_params) beh) (informed W t j)).

(** C68: every key of a client that has been set up - with discovery or configured provider
    information, with or without registration, successfully or not - has one of five origins:
    it was there before; the provider published it for itself, and the name it is filed
    under is a spelling of the issuer the client is to talk to; the administrator listed it;
    it is one of the client's own keys, filed under the identity it got; or it is the
    client's secret. *)
Theorem C68_where_keys_come_from : forall W H beh t j o s,
  In (o, s) (setup_keys W H beh t j) ->
  origin (cl_ctx (tm_client t)) (informed W t j) (registered W H beh t j) j o s.
Proof.
  intros W H beh t j o s. unfold setup_keys, registered, informed.
  set (args := filter (fun kv => dhas (fst kv) registration_params) beh). clearbody args.
  destruct (do_provider_info W (mkp (cl_ctx (tm_client t)) (tm_eps t) j)) as [r p] eqn:E. cbn [snd].
  destruct (provider_info_ctx _ _ _ _ E) as (_ & Hid & _). cbn [p_ctx] in Hid.
  set (c2 := snd (load_registration_response W (tm_client t) (hc_sha H) (hc_seed H) args (p_ctx p))).
  assert (A : forall o s, In (o, s) (p_keys p) -> origin (cl_ctx (tm_client t)) (p_ctx p) c2 j o s).
  { intros o' s' I. apply (proj1 (provider_info_keys _ _ _ _ E o' s')) in I. cbn [p_ctx p_keys] in I.
    destruct I as [I|[(I1 & -> & I2 & I3)|(I1 & I2)]]; [now apply or_had|now apply or_published|now apply or_listed]. }
  destruct r as [v|e]; [|intros I; now apply A].
  intros I. destruct (registered_in (p_ctx p) c2 W (tm_client t) (hc_sha H) (hc_seed H) args eq_refl (p_keys p)) as [[K _]|(N1 & N2 & x & X1 & X2 & _)].
  - rewrite K in I. now apply A.
  - rewrite X2 in I. rewrite Hid in N1. apply in_app_iff in I. destruct I as [I|I].
    + apply own_also_in in I. destruct I as [I|(-> & I & _)]; [now apply A|]. apply or_own; auto.
    + destruct (x =?s "") eqn:Ex; [destruct I|]. assert (Nx : x <> "") by (intros ->; rewrite eqb_refl in Ex; discriminate).
      destruct I as [I|[I|[]]]; injection I as <- <-; apply or_secret; auto.
Qed.
Print Assumptions C68_where_keys_come_from.

(** C68: so a provider cannot give a client keys of anybody else: for an owner that is not
    the client itself, not its identity, not a spelling of its issuer and not listed by the
    administrator, the client has the keys it had before. *)
Theorem C68_no_keys_for_others : forall W H beh t j o s,
  o <> "" -> o <> client_id (registered W H beh t j) -> ~ spelling o (target_issuer (cl_ctx (tm_client t))) ->
  (forall s, ~ listed (provider_info (cl_ctx (tm_client t))) (issuer (cl_ctx (tm_client t))) o s) ->
  In (o, s) (setup_keys W H beh t j) -> In (o, s) j.
Proof.
  intros W H beh t j o s N0 N1 N2 N3 I. apply C68_where_keys_come_from in I.
  destruct I as [o s I|s _ _ S|o s _ L|s _ _ _|o x _ _ _ _ [K|K]].
  - exact I.
  - now contradiction N2.
  - now destruct (N3 s).
  - now contradiction N1.
  - now contradiction N0.
  - now contradiction N1.
Qed.
Print Assumptions C68_no_keys_for_others.

(** C68: what the client signs and authenticates with - its own keys - does not come from
    the provider, apart from the client secret. *)
Theorem C68_own_keys_are_its_own : forall W H beh t j s,
  ~ spelling "" (target_issuer (cl_ctx (tm_client t))) ->
  (forall s, ~ listed (provider_info (cl_ctx (tm_client t))) (issuer (cl_ctx (tm_client t))) "" s) ->
  In ("", s) (setup_keys W H beh t j) -> In ("", s) j \/ s = SSecret (client_secret (registered W H beh t j)).
Proof.
  intros W H beh t j s N2 N3 I. apply C68_where_keys_come_from in I.
  remember "" as o eqn:Eo in I. destruct I as [o s I|s _ _ S|o s _ L|s _ N _|o x _ _ _ X _].
  - subst. auto.
  - rewrite Eo in S. now contradiction N2.
  - subst. now destruct (N3 s).
  - contradiction.
  - right. now rewrite X.
Qed.
Print Assumptions C68_own_keys_are_its_own.

(** C68: nothing is lost in a set-up. *)
Theorem C68_keys_are_kept : forall W H beh t j o s, In (o, s) j -> In (o, s) (setup_keys W H beh t j).
Proof.
  intros W H beh t j o s I. unfold setup_keys.
  destruct (do_provider_info W (mkp (cl_ctx (tm_client t)) (tm_eps t) j)) as [r p] eqn:E.
  assert (A : In (o, s) (p_keys p)) by exact (proj1 (proj2 (provider_info_keys _ _ _ _ E o s)) I).
  destruct r as [v|e]; [|exact A].
  set (args := filter (fun kv => dhas (fst kv) registration_params) beh). clearbody args.
  destruct (registered_in (p_ctx p) _ W (tm_client t) (hc_sha H) (hc_seed H) args eq_refl (p_keys p)) as [[K _]|(_ & _ & x & _ & X2 & _)].
  - now rewrite K.
  - rewrite X2. apply in_app_iff. left. apply own_also_in. auto.
Qed.
Print Assumptions C68_keys_are_kept.

(** C68: the keys published by the provider are used: an accepted answer that names a
    jwks_uri, or has keys in it, puts them in the jar under the issuer. *)
Theorem C68_published_keys_are_used : forall resp p p',
  oidc_update_provider_info resp p = (Ok tt, p') -> forall s, publishes resp s -> In (issuer (p_ctx p'), s) (p_keys p').
Proof.
  intros resp p p' H s P. unfold oidc_update_provider_info, update_provider_info in H. cbn [p_ctx p_eps p_keys] in H.
  destruct (match dget "issuer" resp with Some i => verify_issuer i (p_ctx p) | None => Ok (issuer (p_ctx p)) end) as [i|e]; [|discriminate].
  cbn [p_ctx p_eps p_keys] in H. destruct (match_preferences resp (set_provider_info resp (set_issuer i (p_ctx p)))) as [r2 c2] eqn:Em.
  pose proof (match_preferences_beh _ _ _ _ Em) as B. assert (Hp := f_equal snd H). cbn [snd] in Hp. rewrite <- Hp. cbn [p_ctx p_keys].
  assert (Hi : issuer c2 = i) by (rewrite B; reflexivity). rewrite Hi.
  destruct P as [(u & -> & ->)|(w & -> & -> & ->)]; apply in_app_iff; right; now left.
Qed.
Print Assumptions C68_published_keys_are_used.
(** C68: the keys listed with configured provider information are used, exactly these; a
    list that cannot be understood is refused with an exception. *)
Theorem C68_listed_keys_are_used : forall W p r p', provider_info (p_ctx p) <> [] -> do_provider_info W p = (r, p') ->
  ((exists v, r = Ok v) <-> usable_keys (provider_info (p_ctx p))) /\
  forall o s, usable_keys (provider_info (p_ctx p)) ->
    (In (o, s) (p_keys p') <-> In (o, s) (p_keys p) \/ listed (provider_info (p_ctx p)) (issuer (p_ctx p)) o s).
Proof.
  intros W p r p' N E.
  assert (K : (exists v, r = Ok v) <-> usable_keys (provider_info (p_ctx p))).
  { unfold do_provider_info in E. destruct (provider_info (p_ctx p)) as [|kv pi]; [now contradiction N|].
    destruct (load_configured_keys (issuer (p_ctx p)) (kv :: pi) (p_keys p)) as [r1 j] eqn:El.
    rewrite (load_configured_ok (issuer (p_ctx p)) (kv :: pi) (p_keys p)), El. cbn [fst].
    destruct r1 as [[]|e]; split; intros X.
    - reflexivity.
    - eexists. symmetry. exact (f_equal fst E).
    - destruct X as [v X]. congruence.
    - discriminate. }
  split; [exact K|]. intros o s U. destruct (provider_info_keys _ _ _ _ E o s) as (A & B & C). split.
  - intros I. apply A in I. destruct I as [I|[(I & _)|(_ & I)]]; auto. contradiction.
  - intros [I|I]; [now apply B|]. apply C; [now apply K|exact N|exact I].
Qed.
Print Assumptions C68_listed_keys_are_used.

(** C68: registration.  The answer's secret becomes one of the client's own keys, and what
    the jar becomes is determined by the contexts before and after (the definition of
    setup_keys relies on it). *)
Theorem C68_registration : forall resp c j id secret,
  dget "client_id" resp = Some (VStr id) -> id <> "" -> dget "client_secret" resp = Some (VStr secret) -> secret <> "" ->
  let r' := snd (adopt_registration resp (mkr c (VInt 0) None j)) in
  In ("", SSecret secret) (r_keys r') /\ In (id, SSecret secret) (r_keys r') /\
  (forall s, (forall k, ~ In (id, k) j) -> In ("", s) j -> In (id, s) (r_keys r')) /\
  (client_id c = "" -> r_keys r' = registered_keys c (r_ctx r') j).
Proof.
  intros resp c j id secret Hi Ni Hs Ns r'. unfold r'. clear r'.
  destruct (adopt_registration resp (mkr c (VInt 0) None j)) as [m r'] eqn:E. cbn [snd].
  destruct (adopt_keys _ _ _ _ E) as (K & K1 & _ & K3 & _). cbn [r_keys r_ctx] in K, K1.
  rewrite Hi, Hs in K. rewrite Hi in K1. cbn [str_of] in K, K1. rewrite (eqb_neq _ _ Ni), (eqb_neq _ _ Ns) in K. rewrite (eqb_neq _ _ Ni) in K1.
  split; [|split; [|split]].
  - rewrite K. apply in_app_iff. right. now left.
  - rewrite K. apply in_app_iff. right. right. now left.
  - intros s F I. rewrite K. apply in_app_iff. left. apply own_also_in. right. split; [reflexivity|]. split; [exact I|].
    destruct (is_owner id j) eqn:Q; [|reflexivity]. apply is_owner_true in Q. destruct Q as [k Q]. now destruct (F k).
  - intros Hc. unfold registered_keys. rewrite Hc, eqb_refl, K1, (eqb_neq _ _ Ni). cbn [andb negb]. rewrite K3.
    rewrite (adopt_again _ _ _ _ _ _ E), E. reflexivity.
Qed.
Print Assumptions C68_registration.

(** ** the keys of a new client *)
(** C68: import_keys adds exactly the keys of the specification. *)
Lemma import_rsa_in l o s : In (o, s) (import_rsa l) <-> o = "" /\ exists f, In f l /\ s = SPem f.
Proof.
  induction l as [|f l IH]; cbn [import_rsa In]; [split; [intros []|intros (_ & f & [] & _)]|]. rewrite IH. split.
  - intros [Q|(-> & f' & I & ->)]; [injection Q as <- <-; eauto|eauto].
  - intros (-> & f' & [->|I] & ->); eauto.
Qed.
Lemma import_files_in d : forall j j', import_files d j = (Ok tt, j') -> forall o s,
  In (o, s) j' <-> In (o, s) j \/ exists name v l f, In (name, v) d /\ name = "rsa" /\ o = "" /\ v = VList l /\ In f l /\ s = SPem f.
Proof.
  induction d as [|[typ v] r IH]; intros j j' E o s; cbn [import_files] in E.
  - injection E as <-. split; [auto|]. intros [I|(? & ? & ? & ? & [] & _)]. exact I.
  - destruct (typ =?s "rsa") eqn:T.
    + apply eqb_true_iff in T. subst typ. destruct v as [| | | |l|]; try discriminate.
      rewrite (IH _ _ E o s), in_app_iff, import_rsa_in. split.
      * intros [[I|(-> & f & I & ->)]|(n & v & l' & f & I & K)]; [auto| |]; right.
        -- exists "rsa", (VList l), l, f. repeat split; auto. now left.
        -- exists n, v, l', f. split; [now right|exact K].
      * intros [I|(n & v & l' & f & [I|I] & -> & -> & -> & If & ->)]; [auto| |].
        -- injection I as <-. left. right. eauto.
        -- right. exists "rsa", (VList l'), l', f. auto 8.
    + rewrite (IH _ _ E o s). split; (intros [I|(n & w & l' & f & I & K)]; [auto|right]).
      * exists n, w, l', f. split; [now right|exact K].
      * destruct I as [I|I]; [|exists n, w, l', f; auto]. injection I as <- <-. destruct K as (-> & _). now rewrite eqb_refl in T.
Qed.
Theorem C68_import_keys : forall spec j j', import_keys spec j = (Ok tt, j') -> forall o s,
  In (o, s) j' <-> In (o, s) j \/ imported spec o s.
Proof.
  induction spec as [|[w v] r IH]; intros j j' E o s; cbn [import_keys] in E.
  - injection E as <-. split; [auto|]. intros [I|(d & n & v & _ & [([] & _)|([] & _)])]. exact I.
  - assert (Skip : (forall x, v = VDict x -> w <> "file" /\ w <> "url") -> forall o s, imported ((w, v) :: r) o s <-> imported r o s).
    { intros Nw o0 s0. unfold imported. split; intros (d & n & x & I & K); exists d, n, x; (split; [exact I|]).
      - destruct K as [([K|K] & K')|([K|K] & K')]; auto; injection K as -> ->; destruct (Nw _ eq_refl); contradiction.
      - destruct K as [(K & K')|(K & K')]; [left|right]; (split; [now right|exact K']). }
    destruct (w =?s "file") eqn:T1; [|destruct (w =?s "url") eqn:T2].
    + apply eqb_true_iff in T1. subst w. destruct v as [| | | | |d]; try discriminate.
      destruct (import_files d j) as [[[]|e] j1] eqn:E1; [|discriminate].
      rewrite (IH _ _ E o s), (import_files_in _ _ _ E1 o s). unfold imported. split.
      * intros [[I|(n & v & l & f & I & -> & -> & -> & If & ->)]|(d' & n & v & I & K)]; [auto| |]; right.
        -- exists d, "rsa", (VList l). split; [exact I|]. left. split; [now left|]. repeat split. eauto.
        -- exists d', n, v. split; [exact I|]. destruct K as [(K & K')|(K & K')]; [left|right]; (split; [now right|exact K']).
      * intros [I|(d' & n & v & I & [([K|K] & Kn & Ko & l & f & Kv & If & Ks)|([K|K] & K')])]; [auto| | | |].
        -- injection K as <-. left. right. exists n, v, l, f. auto 8.
        -- right. exists d', n, v. split; [exact I|]. left. split; [exact K|]. eauto 8.
        -- discriminate.
        -- right. exists d', n, v. split; [exact I|]. right. auto.
    + apply eqb_true_iff in T2. subst w. destruct v as [| | | | |d]; try discriminate.
      rewrite (IH _ _ E o s), in_app_iff, in_map_iff. unfold imported. split.
      * intros [[I|([n v] & Q & I)]|(d' & n & v & I & K)]; [auto| |]; right.
        -- injection Q as <- <-. exists d, n, v. split; [exact I|]. right. split; [now left|]. auto.
        -- exists d', n, v. split; [exact I|]. destruct K as [(K & K')|(K & K')]; [left|right]; (split; [now right|exact K']).
      * intros [I|(d' & n & v & I & [([K|K] & K')|([K|K] & -> & ->)])]; [auto| | | |].
        -- discriminate.
        -- right. exists d', n, v. split; [exact I|]. left. auto.
        -- injection K as <-. left. right. exists (n, v). auto.
        -- right. exists d', n, v. split; [exact I|]. right. auto.
    + rewrite (IH _ _ E o s). rewrite Skip; [reflexivity|]. intros x _. split; intros ->; [now rewrite eqb_refl in T1|now rewrite eqb_refl in T2].
Qed.
Print Assumptions C68_import_keys.

(** C68: a client made by a handler has, for every owner the handler has keys of, exactly
    the handler's keys. *)
Theorem C68_handler_keys : forall keep handlers base cnf j, init_client_keys keep handlers base cnf = Ok j ->
  forall o, is_owner o handlers = true -> keys_of o j = keys_of o handlers.
Proof.
  intros keep hs base cnf j E o O. unfold init_client_keys in E. destruct (new_context_keys base cnf) as [j0|e]; [|discriminate].
  assert (Ej : j = jar_load keep hs j0) by (unfold rbind in E; congruence). rewrite Ej. unfold jar_load. rewrite keys_of_app.
  assert (Z : keys_of o (if keep then filter (fun e => negb (is_owner (fst e) hs)) j0 else []) = []).
  { destruct keep; [|reflexivity]. clear -O. unfold keys_of. induction j0 as [|[o' s] r IH]; [reflexivity|]. cbn [filter fst].
    destruct (negb (is_owner o' hs)) eqn:N; [|exact IH]. cbn [filter fst]. destruct (o' =?s o) eqn:Q; [|exact IH].
    apply eqb_true_iff in Q. subst. rewrite O in N. discriminate. }
  exact (f_equal (fun l => l ++ keys_of o hs) Z).
Qed.
Print Assumptions C68_handler_keys.
(** Finding: therefore, if the handler has keys of its own - it always has them unless it is
    given a jar without - the client's configured secret is not among the client's keys
    (nor are the keys of its own 'keys' configuration), and no client of it can sign with its
    secret: client_secret_jwt fails whatever the context. *)
Theorem C68_configured_secret_is_no_key : forall keep handlers base cnf j secret,
  init_client_keys keep handlers base cnf = Ok j -> is_owner "" handlers = true ->
  ~ In ("", SSecret secret) handlers -> ~ In ("", SSecret secret) j.
Proof.
  intros keep hs base cnf j secret E O N I. apply N. apply in_keys_of. rewrite <- (C68_handler_keys _ _ _ _ _ E "" O). now apply in_keys_of.
Qed.
Print Assumptions C68_configured_secret_is_no_key.
(** the client's own keys as client authentication sees them; [view] reads a source *)
Definition own_keys (view : ksrc -> list key) (j : jar) : list key := flat_map view (keys_of "" j).
Lemma no_oct_key own alg kid sig : alg2keytype alg = "oct" -> (forall k, In k own -> k_ty k <> "oct") ->
  forall ks, get_signing_key own sig alg kid = Ok ks -> ks = [].
Proof.
  intros A N. assert (B : forall kid0 x, get_key_by_kid kid0 alg own <> Ok x).
  { intros kid0 x. induction own as [|k own IH]; cbn [get_key_by_kid]; [discriminate|].
    assert (Nk : k_ty k <> "oct") by (apply N; now left). destruct (k_id k =?s kid0).
    - rewrite A, (eqb_neq _ _ Nk). discriminate.
    - apply IH. intros k' I. apply N. now right. }
  assert (C : keys_of_type own "oct" = []).
  { unfold keys_of_type. induction own as [|k own IH]; [reflexivity|]. cbn [filter].
    rewrite (eqb_neq (k_ty k) "oct") by (apply N; now left). apply IH. intros k' I. apply N. now right.
    intros kid0 x. specialize (B kid0 x). clear IH. cbn [get_key_by_kid] in B. destruct (k_id k =?s kid0) eqn:Q; [|exact B].
    clear - N A. assert (M : forall k', In k' own -> k_ty k' <> "oct") by (intros k' I; apply N; now right). clear N.
    induction own as [|k' own IH]; cbn [get_key_by_kid]; [discriminate|]. destruct (k_id k' =?s kid0).
    - rewrite A, (eqb_neq (k_ty k') "oct") by (apply M; now left). discriminate.
    - apply IH. intros k2 I. apply M. now right. }
  intros ks E. unfold get_signing_key in E. cbv zeta in E. rewrite A in E.
  destruct (match kid with Some k => k | None => "" end =?s "").
  - destruct (dget "oct" sig) as [k0|].
    + destruct (get_key_by_kid k0 alg own) as [x|e] eqn:Q; [exact (False_ind _ (B _ x Q))|discriminate].
    + congruence.
  - destruct (get_key_by_kid (match kid with Some k => k | None => "" end) alg own) as [x|e] eqn:Q; [exact (False_ind _ (B _ x Q))|discriminate].
Qed.
Theorem C68_client_secret_jwt_fails : forall keep handlers base cnf j view sgn sig_kids jti now meth c kw,
  init_client_keys keep handlers base cnf = Ok j -> is_owner "" handlers = true ->
  (forall s k, In ("", s) handlers -> In k (view s) -> k_ty k <> "oct") ->
  (forall aud alg, audience_and_algorithm (own_keys view j) meth c kw = Ok (aud, alg) -> alg2keytype alg = "oct") ->
  forall a, construct_client_assertion sgn (own_keys view j) sig_kids jti now meth c kw <> Ok a.
Proof.
  intros keep hs base cnf j view sgn sig jti now meth c kw E O N A a.
  assert (N' : forall k, In k (own_keys view j) -> k_ty k <> "oct").
  { intros k I. unfold own_keys in I. apply in_flat_map in I. destruct I as (s & I & K).
    rewrite (C68_handler_keys _ _ _ _ _ E "" O) in I. apply in_keys_of in I. eauto. }
  unfold construct_client_assertion. destruct (audience_and_algorithm (own_keys view j) meth c kw) as [[aud alg]|e] eqn:Q; [|discriminate].
  cbn [rbind]. specialize (A aud alg eq_refl).
  destruct (get_signing_key (own_keys view j) sig alg (match dget "kid" kw with Some (VStr k) => Some k | Some _ => Some "" | None => None end)) as [ks|e] eqn:G; [|discriminate].
  rewrite (no_oct_key _ _ _ _ A N' _ G). discriminate.
Qed.
Print Assumptions C68_client_secret_jwt_fails.

(** ** a concrete handler *)
(** a handler with two keys, a client with a configured secret: the secret is gone *)
Definition kx_handler : jar := [("", SFile (VStr "rsa")); ("", SFile (VStr "ec"))].
Definition kx_cnf : dict val := [("client_id", VStr "c"); ("client_secret", VStr "0123456789abcdef")].
Example C68_ex_secret : forall keep, exists j0,
  new_context_keys [] kx_cnf = Ok j0 /\ In ("", SSecret "0123456789abcdef") j0 /\
  init_client_keys keep kx_handler [] kx_cnf = Ok kx_handler /\ is_owner "" kx_handler = true.
Proof. intros keep. eexists. split; [reflexivity|]. split; [now left|]. split; [destruct keep; reflexivity|reflexivity]. Qed.
(** a handler without own keys leaves it in place *)
Example C68_ex_no_handler_keys : init_client_keys true [] [] kx_cnf = Ok [("", SSecret "0123456789abcdef")].
Proof. reflexivity. Qed.
(** with a context in which client_secret_jwt would be used, its hypotheses hold *)
Definition kx_view (s : ksrc) : list key :=
  match s with SFile (VStr t) => [mkkey t (if t =?s "rsa" then "RSA" else "EC")] | SSecret _ => [mkkey "" "oct"] | _ => [] end.
Definition kx_ctx : ctx := set_provider_info [("token_endpoint", VStr "https://op.example/t"); ("issuer", VStr "https://op.example")] (set_registration [] ex_ctx).
Example C68_ex_jwt :
  (forall s k, In ("", s) kx_handler -> In k (kx_view s) -> k_ty k <> "oct") /\
  audience_and_algorithm (own_keys kx_view kx_handler) "client_secret_jwt" kx_ctx [] = Ok (VStr "https://op.example", "HS256") /\
  alg2keytype "HS256" = "oct" /\
  construct_client_assertion (fun _ _ _ => "jwt") (own_keys kx_view [("", SSecret "0123456789abcdef")]) [] "id" 0 "client_secret_jwt" kx_ctx [] = Ok "jwt" /\
  construct_client_assertion (fun _ _ _ => "jwt") (own_keys kx_view kx_handler) [] "id" 0 "client_secret_jwt" kx_ctx [] = Err Unsupported.
Proof.
  split; [|repeat split; reflexivity]. intros s k [E|[E|[]]]; injection E as <-; intros [<-|[]]; discriminate.
Qed.
(** a whole set-up: discovery with published keys, then registration *)
Definition kx_http : http_client := fun u m b h =>
  let js d := Ok (mkresp 200 (Some "application/json") (json_dumps (VDict d))) in
  if u =?s "https://op.example/.well-known/openid-configuration"
  then js (op_pcr "https://op.example" ++ [("jwks_uri", VStr "https://op.example/jwks")])
  else js [("client_id", VStr "c1"); ("client_secret", VStr "s1")].
Definition kx_setup : jar :=
  match init_client su_conf "https://op.example" [("", su_default)] with
  | (Ok t, _) => setup_keys (with_http (su_env kA) kx_http) su_conf [] t kx_handler
  | _ => []
  end.
Example C68_ex_setup : kx_setup = kx_handler ++
  [("https://op.example", SUrl (VStr "https://op.example/jwks")); ("c1", SFile (VStr "rsa")); ("c1", SFile (VStr "ec"));
   ("", SSecret "s1"); ("c1", SSecret "s1")].
Proof. vm_compute. reflexivity. Qed.
(** configured provider information with keys *)
Definition kx_pi (keys : val) : dict val := ("keys", keys) :: op_pcr "https://op.example".
Example C68_ex_listed :
  let p k := mkp (set_provider_info (kx_pi k) ex_ctx) [] kx_handler in
  let good := VDict [("url", VDict [("https://other.example", VStr "https://other.example/jwks")]); ("file", VDict [("rsa", VStr "op.pem"); ("dsa", VStr "x")])] in
  usable_keys (kx_pi good) /\
  p_keys (snd (do_provider_info (su_env kA) (p good))) =
    kx_handler ++ [("https://other.example", SUrl (VStr "https://other.example/jwks")); (issuer ex_ctx, SPem (VStr "op.pem"))] /\
  fst (do_provider_info (su_env kA) (p (VDict [("ldap", VDict [])]))) = Err ValueError.
Proof.
  cbv zeta. split; [|split; vm_compute; reflexivity].
  intros v E. cbn in E. injection E as <-. eexists. split; [reflexivity|].
  intros typ spec [I|[I|[]]]; injection I as <- <-; split; eauto.
Qed.

(** ** what the handler publishes *)
(** C68: keys are published by reference or by value, never both; by reference the address
    is under the handler's URL; by value it is the handler's own keys. *)
Theorem C68_handler_publishes : forall default base keyjar path,
  let h := handler_init default base keyjar path in
  (exists p, p <> "" /\ hk_jwks_uri h = add_path base p /\ hk_jwks h = None) \/
  (exists j, hk_jwks_uri h = "" /\ hk_jwks h = Some j /\ forall o s, In (o, s) j <-> o = "" /\ In (o, s) (hk_jar h)).
Proof.
  intros default base keyjar path. cbv zeta. unfold handler_init.
  set (j := match keyjar with Some j => j | None => _ end). clearbody j.
  set (p := match keyjar with Some _ => _ | None => _ end). clearbody p.
  destruct (p =?s "") eqn:E; cbn [hk_jwks_uri hk_jwks hk_jar].
  - right. eexists. split; [reflexivity|]. split; [reflexivity|]. intros o s. rewrite filter_In. cbn [fst].
    split; [intros [I T]; apply eqb_true_iff in T; auto|intros [-> I]; split; [exact I|reflexivity]].
  - left. exists p. split; [intros ->; rewrite eqb_refl in E; discriminate|]. auto.
Qed.
Print Assumptions C68_handler_publishes.
(** C68: with a path the keys are published there; a handler that makes its own keys
    publishes them under static/jwks.json unless told otherwise, and holds them also as those
    of its own address. *)
Theorem C68_where_keys_are_published : forall default base,
  (forall keyjar p, p <> "" -> hk_jwks_uri (handler_init default base keyjar (Some p)) = add_path base p) /\
  hk_jwks_uri (handler_init default base None None) = add_path base "static/jwks.json" /\
  (forall path o s, In (o, s) (hk_jar (handler_init default base None path)) <-> In (o, s) default \/ (o = base /\ In ("", s) default)) /\
  (forall keyjar path, hk_jar (handler_init default base (Some keyjar) path) = keyjar).
Proof.
  intros default base. split; [|split; [reflexivity|split]].
  - intros keyjar p Hp. unfold handler_init. destruct keyjar; cbn [negb]; rewrite (eqb_neq _ _ Hp); reflexivity.
  - intros path o s. unfold handler_init.
    assert (J : In (o, s) (default ++ map (fun s => (base, s)) (keys_of "" default)) <-> In (o, s) default \/ (o = base /\ In ("", s) default)).
    { rewrite in_app_iff, in_map_iff. apply or_iff_compat_l. unfold keys_of. split.
      - intros (x & E & I). injection E as <- <-. split; [reflexivity|]. apply in_map_iff in I. destruct I as ([o' s'] & E & I). cbn in E. subst.
        apply filter_In in I. destruct I as [I T]. cbn in T. apply eqb_true_iff in T. now subst.
      - intros [-> I]. exists s. split; [reflexivity|]. apply in_map_iff. exists ("", s). split; [reflexivity|]. apply filter_In. split; [exact I|reflexivity]. }
    destruct path as [p|]; [destruct (p =?s "")|]; exact J.
  - intros keyjar path. unfold handler_init. destruct path as [p|]; [destruct (p =?s "")|]; reflexivity.
Qed.
Print Assumptions C68_where_keys_are_published.
(** Finding: keys that the handler would publish by value never reach its clients: a client
    of a handler that was given its keys but no path for them registers without any keys, so
    that the provider cannot check what the client signs. *)
Theorem C68_handler_keys_are_published_refuted : exists keyjar base t cfgs req c',
  let h := handler_init [] base (Some keyjar) None in
  hk_jwks h = Some keyjar /\ keyjar <> [] /\
  init_client (mkhc base (hk_jwks_uri h) (hc_make su_conf) "seed" (hc_sha su_conf) (hc_nok su_conf)) "https://op.example" [("", su_default)] = (Ok t, cfgs) /\
  construct (registration_service (hc_sha su_conf) "seed" (fun _ m => Ok m) registration_update []) [] [] (cl_ctx (tm_client t)) = (Ok req, c') /\
  dget "jwks" req = None /\ dget "jwks_uri" req = None /\ dget "redirect_uris" req <> None.
Proof.
  exists kx_handler, "https://rp.example". do 4 eexists. cbv zeta.
  split; [reflexivity|]. split; [discriminate|]. split; [reflexivity|]. split; [vm_compute; reflexivity|].
  split; [reflexivity|]. split; [reflexivity|discriminate].
Qed.
Print Assumptions C68_handler_keys_are_published_refuted.
