(** Property theorems C64: the services of a client.
    Model in M_Services.v, specification in S_Services.v, proofs in P_Services.v. *)
From Verif Require Import Base BaseP Json M_ReqObj M_Services S_Services P_Services.

(** C64: the service a client knows under a name is the one the last definition of that
    name describes: its class, its configuration, its own functions followed by the
    configured ones in their order, bound to this client; and under a name that no
    definition's class has there is none. *)
Theorem C64_service_is_the_defined_one : forall I client factory defs h srv h',
  init_services I client factory defs h = (Ok srv, h') -> forall n,
  (exists d i, last_for I n defs d /\ get_service srv n = Some i /\ describes I h client factory d i) \/
  ((forall key d k, In (key, d) defs -> names_class I d k -> k_service_name k <> n) /\ get_service srv n = None).
Proof.
  intros I client factory defs h srv h' H n. unfold init_services in H.
  apply (init_from_spec I client factory n defs [] h srv h (same_refl h)). rewrite H. reflexivity.
Qed.
Print Assumptions C64_service_is_the_defined_one.

(** C64: a configuration whose definitions are all usable gives a client. *)
Theorem C64_usable_definitions_suffice : forall I client factory defs h,
  (forall key d, In (key, d) defs -> usable I h d) -> exists srv, fst (init_services I client factory defs h) = Ok srv.
Proof. intros. now apply init_from_total. Qed.
Print Assumptions C64_usable_definitions_suffice.

(** C64: the services of a client do not depend on the clients made before from the same
    configuration, although these have written into it. *)
Theorem C64_clients_do_not_share_services : forall I cs client factory defs h,
  fst (init_services I client factory defs (made_before I cs h)) = fst (init_services I client factory defs h).
Proof. intros I cs client factory defs h. apply init_from_stable, same_sym, made_before_same. Qed.
Print Assumptions C64_clients_do_not_share_services.

(** C64: of the configuration only the arguments client_get and client_authn_factory change;
    and they do: afterwards the configuration refers to the client. *)
Theorem C64_configuration_otherwise_unchanged : forall I client factory defs h l k,
  k <> "client_get" -> k <> "client_authn_factory" -> dget k (snd (init_services I client factory defs h) l) = dget k (h l).
Proof. intros I client factory defs h l k K1 K2. symmetry. now apply (init_from_same I client factory defs [] h l k). Qed.
Print Assumptions C64_configuration_otherwise_unchanged.
Theorem C64_configuration_unchanged_refuted : exists I client factory defs h srv h' l,
  init_services I client factory defs h = (Ok srv, h') /\ dget "client_get" (h l) = None /\ dget "client_get" (h' l) = Some (KClient client).
Proof.
  exists package, 3, "factory", [("userinfo", mkdef (Some (CName "oidcrp.oidc.userinfo.UserInfo")) (Some 0) [] [])],
    (fun _ => [("conf", KVal (VDict [("http_method", VStr "POST")]))]). do 2 eexists. exists 0.
  split; [vm_compute; reflexivity|]. split; reflexivity.
Qed.
Print Assumptions C64_configuration_unchanged_refuted.

(** C64: a service found by the name of an endpoint has that endpoint name, is one of the
    client's services and the first such; none is found only if there is none. *)
Theorem C64_lookup_by_endpoint : forall (srv : dict inst) ep,
  match get_service_by_endpoint_name srv ep with
  | Some i => k_endpoint_name (i_class i) = ep /\
              exists before n after, srv = before ++ (n, i) :: after /\ forall m j, In (m, j) before -> k_endpoint_name (i_class j) <> ep
  | None => forall n i, In (n, i) srv -> k_endpoint_name (i_class i) <> ep
  end.
Proof.
  intros srv ep. unfold get_service_by_endpoint_name. induction srv as [|[n i] r IH]; cbn; [easy|].
  destruct (k_endpoint_name (i_class i) =?s ep) eqn:E; cbn.
  - apply eqb_true_iff in E. split; [exact E|]. exists [], n, r. split; [reflexivity|easy].
  - assert (N : k_endpoint_name (i_class i) <> ep) by (intros X; rewrite <- X, eqb_refl in E; discriminate).
    destruct (option_map snd (find _ r)) as [j|].
    + destruct IH as (A & b & m & a & -> & B). split; [exact A|]. exists ((n, i) :: b), m, a. split; [reflexivity|].
      intros m' j' [X|X]; [injection X as <- <-; exact N|eapply B; exact X].
    + intros m j [X|X]; [injection X as <- <-; exact N|eapply IH; exact X].
Qed.
Print Assumptions C64_lookup_by_endpoint.

(** C64 says "the last definition": the keys of the configuration are not the names of the
    services, and two definitions whose classes have the same name give one service.  So a
    client configured for both the authorization code and the client credentials grant can
    do only one of them. *)
Theorem C64_every_definition_gives_a_service_refuted : exists defs client factory h srv h' d i,
  NoDup (map fst defs) /\ defs = oauth2_default_services ++ [("client_credentials", d)] /\
  d_class d = Some (CName "oidcrp.oauth2.client_credentials.cc_access_token.CCAccessToken") /\
  init_services package client factory defs h = (Ok srv, h') /\
  length srv < length defs /\ get_service srv "client_credentials" = None /\ get_service srv "access_token" = None /\
  get_service srv "accesstoken" = Some i /\ i_pre i = [] /\ i_post i = [].
Proof.
  exists (oauth2_default_services ++ [("client_credentials", plain_def "oidcrp.oauth2.client_credentials.cc_access_token.CCAccessToken")]), 0, "factory", (fun _ => []).
  do 2 eexists. exists (plain_def "oidcrp.oauth2.client_credentials.cc_access_token.CCAccessToken"). eexists.
  split; [repeat constructor; cbn; intuition discriminate|]. split; [reflexivity|]. split; [reflexivity|].
  split; [vm_compute; reflexivity|]. repeat split; vm_compute; reflexivity.
Qed.
Print Assumptions C64_every_definition_gives_a_service_refuted.

(** C64: without services in the configuration a client has the services of its kind. *)
Theorem C64_default_services : forall of_name client factory h,
  (exists o, fst (new_client package of_name oidc_default_services client factory [] [] h) = Ok o /\
     dkeys (o_srv o) = ["provider_info"; "registration"; "authorization"; "accesstoken"; "refresh_token"; "userinfo"; "end_session"] /\
     forall n i, In (n, i) (o_srv o) -> i_client i = client /\ i_factory i = factory /\ i_conf i = []) /\
  (exists o, fst (new_client package of_name oauth2_default_services client factory [] [] h) = Ok o /\
     dkeys (o_srv o) = ["provider_info"; "authorization"; "accesstoken"; "refresh_token"] /\
     forall n i, In (n, i) (o_srv o) -> i_client i = client /\ i_factory i = factory /\ i_conf i = []).
Proof.
  intros of_name client factory h. split.
  - eexists. split; [vm_compute; reflexivity|]. split; [reflexivity|]. cbn. intros n i H.
    repeat (destruct H as [H|H]; [injection H as <- <-; repeat split|]). destruct H.
  - eexists. split; [vm_compute; reflexivity|]. split; [reflexivity|]. cbn. intros n i H.
    repeat (destruct H as [H|H]; [injection H as <- <-; repeat split|]). destruct H.
Qed.
Print Assumptions C64_default_services.

(** C64: with services in the configuration a client has those and no others, whatever the
    defaults of its kind are. *)
Theorem C64_configured_services_only : forall I of_name default client factory services h o h', services <> [] ->
  new_client I of_name default client factory services [] h = (Ok o, h') -> forall n,
  (exists d i, last_for I n services d /\ get_service (o_srv o) n = Some i /\ describes I h client factory d i) \/
  ((forall key d k, In (key, d) services -> names_class I d k -> k_service_name k <> n) /\ get_service (o_srv o) n = None).
Proof.
  intros I of_name default client factory services h o h' NE E n. unfold new_client in E.
  assert (S : services_or services default = services) by (unfold services_or; destruct services; [now contradiction NE | reflexivity]).
  rewrite S in E. destruct (init_services I client factory services h) as [r h1] eqn:IE. destruct r as [srv | e]; [| discriminate].
  cbn in E. assert (O : o = mkoutfit srv []) by congruence. rewrite O. cbn.
  exact (C64_service_is_the_defined_one I client factory services h srv h1 IE n).
Qed.
Print Assumptions C64_configured_services_only.

(** ** Add-ons *)
Lemma dget_dmap1 n f (d : dict inst) m : dget m (dmap1 n f d) = if n =?s m then option_map f (dget m d) else dget m d.
Proof.
  unfold dmap1. destruct (n =?s m) eqn:E.
  - apply eqb_true_iff in E. subst. destruct (dget m d) eqn:G; [now rewrite dget_dset_eq|exact G].
  - destruct (dget n d); [|reflexivity]. rewrite dget_dset_neq; [reflexivity|]. intros ->. now rewrite eqb_refl in E.
Qed.
Lemma dhas_dmap1 n f (d : dict inst) m : dhas m (dmap1 n f d) = dhas m d.
Proof. unfold dhas. rewrite dget_dmap1. destruct (n =?s m); [|reflexivity]. now destruct (dget m d). Qed.

(** C64: the PKCE add-on adds the code challenge as the last thing before an authorization
    request is made and the verifier as the last thing after a token request is made, and
    touches no other service; the DPoP add-on adds its header to token and user info
    requests only; the pushed authorization add-on works last on authorization requests. *)
Theorem C64_pkce : forall kw o o' ia it,
  get_service (o_srv o) "authorization" = Some ia -> get_service (o_srv o) "accesstoken" = Some it -> add_pkce kw o = Ok o' ->
  get_service (o_srv o') "authorization" = Some (with_pre (PFun "add_code_challenge") ia) /\
  get_service (o_srv o') "accesstoken" = Some (with_post (PFun "add_code_verifier") (with_pre (PFun "put_state_in_post_args") it)) /\
  (forall n, n <> "authorization" -> n <> "accesstoken" -> get_service (o_srv o') n = get_service (o_srv o) n).
Proof.
  intros kw o o' ia it A T. unfold add_pkce, get_service in *. destruct (args_ok _ _ kw); [|discriminate].
  unfold dhas. rewrite A, T. cbn [andb]. intros H. injection H as <-. cbn [o_srv].
  rewrite !dget_dmap1. cbn [String.eqb Ascii.eqb Bool.eqb]. rewrite A, T. split; [reflexivity|]. split; [reflexivity|].
  intros n N1 N2. rewrite !dget_dmap1. rewrite (eqb_neq "accesstoken" n), (eqb_neq "authorization" n) by congruence. reflexivity.
Qed.
Print Assumptions C64_pkce.
Theorem C64_dpop : forall kw o o', add_dpop kw o = Ok o' ->
  forall n, get_service (o_srv o') n =
    (if (n =?s "accesstoken") || (n =?s "userinfo") then option_map (with_header "dpop_header") (get_service (o_srv o) n)
     else get_service (o_srv o) n).
Proof.
  intros kw o o'. unfold add_dpop, get_service. destruct (args_ok _ _ kw); [|discriminate].
  destruct (dhas "accesstoken" (o_srv o)); [|discriminate]. intros H. injection H as <-. cbn [o_srv]. intros n.
  rewrite !dget_dmap1. rewrite (eqb_sym n "accesstoken"), (eqb_sym n "userinfo").
  destruct ("userinfo" =?s n) eqn:E1, ("accesstoken" =?s n) eqn:E2; try reflexivity.
  apply eqb_true_iff in E1. subst. discriminate.
Qed.
Print Assumptions C64_dpop.
Theorem C64_par : forall kw o o', add_par kw o = Ok o' ->
  forall n, get_service (o_srv o') n =
    (if n =?s "authorization" then option_map (with_post (PFun "push_authorization")) (get_service (o_srv o) n) else get_service (o_srv o) n).
Proof.
  intros kw o o'. unfold add_par, get_service. destruct (args_ok _ _ kw); [|discriminate].
  destruct (dhas "authorization" (o_srv o)); [|discriminate]. intros H. injection H as <-. cbn [o_srv]. intros n.
  now rewrite dget_dmap1, (eqb_sym n "authorization").
Qed.
Print Assumptions C64_par.
(** C64: PKCE and pushed authorization may be configured in either order: every service is
    the same, so that the pushed request has the code challenge. *)
Theorem C64_pkce_and_par_in_any_order : forall k1 k2 o o1 o2 o12 o21,
  add_pkce k1 o = Ok o1 -> add_par k2 o1 = Ok o12 -> add_par k2 o = Ok o2 -> add_pkce k1 o2 = Ok o21 ->
  (forall n, get_service (o_srv o12) n = get_service (o_srv o21) n) /\
  (dhas "authorization" (o_srv o) = true -> dhas "accesstoken" (o_srv o) = true ->
     exists i, get_service (o_srv o12) "authorization" = Some i /\
       In (PFun "add_code_challenge") (i_pre i) /\ exists l, i_post i = l ++ [PFun "push_authorization"]).
Proof.
  intros k1 k2 o o1 o2 o12 o21 H1 H12 H2 H21.
  assert (P : forall kw x y, add_pkce kw x = Ok y ->
    if dhas "authorization" (o_srv x) && dhas "accesstoken" (o_srv x)
    then o_srv y = dmap1 "accesstoken" (fun i => with_post (PFun "add_code_verifier") (with_pre (PFun "put_state_in_post_args") i))
               (dmap1 "authorization" (with_pre (PFun "add_code_challenge")) (o_srv x)) else y = x).
  { intros kw x y. unfold add_pkce. destruct (args_ok _ _ kw); [|discriminate]. destruct (_ && _); intros H; injection H as <-; reflexivity. }
  assert (Q : forall kw x y, add_par kw x = Ok y -> o_srv y = dmap1 "authorization" (with_post (PFun "push_authorization")) (o_srv x)).
  { intros kw x y. unfold add_par. destruct (args_ok _ _ kw); [|discriminate]. destruct (dhas _ _); [|discriminate]. intros H; injection H as <-; reflexivity. }
  apply P in H1. apply P in H21. apply Q in H12. apply Q in H2. rewrite H2, !dhas_dmap1 in H21.
  destruct (dhas "authorization" (o_srv o) && dhas "accesstoken" (o_srv o)) eqn:E.
  - split.
    + intros n. unfold get_service. rewrite H12, H1, H21, !dget_dmap1.
      destruct ("authorization" =?s n) eqn:E1, ("accesstoken" =?s n) eqn:E2; try reflexivity; [apply eqb_true_iff in E1; subst; discriminate|].
      now destruct (dget n (o_srv o)).
    + intros HA HT. unfold get_service. rewrite H12, H1, !dget_dmap1. cbn [String.eqb Ascii.eqb Bool.eqb].
      unfold dhas in HA. destruct (dget "authorization" (o_srv o)) as [i|]; [|discriminate]. eexists. split; [reflexivity|]. cbn. split.
      * apply in_or_app. right. now left.
      * eauto.
  - split; [|intros HA HT; rewrite HA, HT in E; discriminate].
    intros n. rewrite H12, H1. rewrite H21, H2. reflexivity.
Qed.
Print Assumptions C64_pkce_and_par_in_any_order.
(** The PKCE add-on for a client that lacks one of the services is left out without an
    error, while the two others raise KeyError. *)
Theorem C64_add_on_is_added_or_refused_refuted : exists kw o, add_pkce kw o = Ok o /\ get_service (o_srv o) "authorization" <> None.
Proof.
  exists [("code_challenge_length", VInt 64); ("code_challenge_method", VStr "S256")],
    (mkoutfit [("authorization", mkinst (mkclass "authorization" "authorization_endpoint" None [] []) 0 "" [] [] [] [])] []).
  split; [reflexivity|]. discriminate.
Qed.
Print Assumptions C64_add_on_is_added_or_refused_refuted.

(** ** A client with configured functions and both add-ons *)
Definition vx_imports : imports := fun m a => if m =?s "app.mods" then Ok (PFun a) else package m a.
Definition vx_addons (q : string) : res add_on :=
  if q =?s "oidcrp.oauth2.add_on.pkce.add_support" then Ok add_pkce
  else if q =?s "oidcrp.oauth2.add_on.pushed_authorization.add_support" then Ok add_par else Err AttributeError.
Definition vx_defs : dict sdef :=
  [("authz", mkdef (Some (CName "oidcrp.oidc.authorization.Authorization")) (Some 0) [None; Some "app.mods:after"] [Some "app.mods.before"]);
   ("token", mkdef (Some (CObj (mkclass "accesstoken" "token_endpoint" None [] []))) (Some 0) [] [])].
Definition vx_pkce : string * dict val := ("oidcrp.oauth2.add_on.pkce.add_support", [("code_challenge_length", VInt 64); ("code_challenge_method", VStr "S256")]).
Definition vx_par : string * dict val := ("oidcrp.oauth2.add_on.pushed_authorization.add_support", []).
Example C64_ex : exists o h' i,
  new_client vx_imports vx_addons oidc_default_services 7 "f" vx_defs [("par", vx_par); ("pkce", vx_pkce)] (fun _ => [("conf", KVal (VDict [("x", VInt 1)]))]) = (Ok o, h') /\
  get_service (o_srv o) "authorization" = Some i /\ i_client i = 7 /\ i_conf i = [("x", VInt 1)] /\
  i_pre i = [PFun "set_state"; PFun "pre_construct_pick_redirect_uri"; PFun "oidc_pre_construct"; PFun "before"; PFun "add_code_challenge"] /\
  i_post i = [PFun "oidc_post_construct"; PFun "after"; PFun "push_authorization"] /\
  get_service (o_srv o) "authz" = None.
Proof. do 3 eexists. split; [vm_compute; reflexivity|]. split; [vm_compute; reflexivity|]. repeat split. Qed.
