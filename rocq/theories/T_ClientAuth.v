(** Property theorems C20-C23: client authentication. *)
From Verif Require Import Base BaseP Json Msg M_State S_State M_Ctx M_Codec M_ClientAuth S_ClientAuth P_ClientAuth.

(** C20: reading the header back (RFC 6749 2.3.1, base64url flavour: [read_basic])
    gives exactly the user and password in force. *)
Theorem C20_basic_header_decodes_to_credentials : forall E sn cls atr c kwargs ha req ha' r,
  authenticate E "client_secret_basic" sn cls atr c kwargs ha req = Ok (ha', r) ->
  exists u p hs h,
    user_in_force c kwargs = Some (VStr u) /\ password_in_force c req kwargs = Some (VStr p) /\
    ha' = Some hs /\ dget "Authorization" hs = Some h /\ read_basic h = Some (u, p) /\
    (forall k, k <> "Authorization" -> dget k hs = dget k (match ha with Some h => h | None => [] end)) /\
    dget "client_secret" r = None /\
    (forall k, k <> "client_secret" -> k <> "client_id" -> dget k r = dget k req).
Proof. exact basic_full. Qed.
Print Assumptions C20_basic_header_decodes_to_credentials.
Theorem C20_distinct_credentials_distinct_headers : forall u p u' p',
  ("Basic " ++ basic_token u p = "Basic " ++ basic_token u' p')%string -> u = u' /\ p = p'.
Proof. exact basic_header_inj. Qed.
Print Assumptions C20_distinct_credentials_distinct_headers.
(** the header is not always standard base64 (RFC 7617): for client a / secret ~ a
    standard decoder rejects it *)
Theorem C20_header_is_standard_base64_refuted : exists u p,
  b64dec true (basic_token u p) <> None /\ b64dec false (basic_token u p) = None.
Proof. exists "a", "~". vm_compute. split; [discriminate|reflexivity]. Qed.
Print Assumptions C20_header_is_standard_base64_refuted.
Theorem C20_code_grant_request_names_the_client : forall cls c kwargs ha req ha' r,
  client_secret_basic cls true c kwargs ha req = Ok (ha', r) ->
  dget "grant_type" req = Some (VStr "authorization_code") ->
  dget "client_id" r = Some (match dget "client_id" req with Some v => v | None => VStr (client_id c) end).
Proof. exact basic_client_id. Qed.
Print Assumptions C20_code_grant_request_names_the_client.

(** C21 *)
Theorem C21_secret_not_in_body : forall E meth sn cls atr c kwargs ha req ha' r,
  authenticate E meth sn cls atr c kwargs ha req = Ok (ha', r) -> meth <> "client_secret_post" ->
  dget "client_secret" r = None \/
  ((meth = "bearer_header" \/ meth = "bearer_body") /\ dget "client_secret" r = dget "client_secret" req).
Proof. exact authenticate_secret. Qed.
Print Assumptions C21_secret_not_in_body.
Theorem C21_client_secret_post_body : forall c kwargs ha req,
  match client_secret_post c kwargs ha req with
  | Ok (ha', r) =>
      ha' = ha /\ dget "client_id" r = Some (VStr (client_id c)) /\
      dget "client_secret" r =
        Some (match dget "client_secret" req with Some v => v | None =>
              match dget "client_secret" kwargs with Some v => v | None => VStr (client_secret c) end end) /\
      (forall k, k <> "client_id" -> k <> "client_secret" -> dget k r = dget k req)
  | Err e => e = AuthnFailure /\ dget "client_secret" req = None /\ dget "client_secret" kwargs = None /\
             client_secret c = ""
  end.
Proof. exact post_spec. Qed.
Print Assumptions C21_client_secret_post_body.

(** C22: the header carries the token in force (S_ClientAuth.v), which is taken out of
    the request; everything else in the request stays as it is *)
Theorem C22_bearer_header_carries_the_token_in_force : forall E sn cls atr c kwargs ha req ha' r,
  authenticate E "bearer_header" sn cls atr c kwargs ha req = Ok (ha', r) ->
  let ty := if sn =?s "refresh_token" then "refresh_token" else "access_token" in
  exists t hs, token_in_force c kwargs ty req (VStr t) /\ t <> "" /\
    ha' = Some hs /\ dget "Authorization" hs = Some ("Bearer " ++ t)%string /\
    (forall k, k <> "Authorization" -> dget k hs = dget k (match ha with Some h => h | None => [] end)) /\
    dget ty r = None /\ (forall k, k <> ty -> dget k r = dget k req).
Proof. exact bearer_full. Qed.
Print Assumptions C22_bearer_header_carries_the_token_in_force.
(** there is at most one token in force *)
Theorem C22_token_in_force_is_unique : forall c kwargs ty req t t',
  token_in_force c kwargs ty req t -> token_in_force c kwargs ty req t' -> t = t'.
Proof.
  intros c kwargs ty req t t' [x A|x A B|k x A B C (s & D & F)] [y A'|y A' B'|k' y A' B' C' (s' & D' & F')]; congruence.
Qed.
Print Assumptions C22_token_in_force_is_unique.
(** a token given with the request or by the caller is always used *)
Theorem C22_given_token_is_used : forall E sn cls atr c kwargs ha req t,
  let ty := if sn =?s "refresh_token" then "refresh_token" else "access_token" in
  first_given [dget ty req; dget "access_token" kwargs] = Some (VStr t) -> t <> "" ->
  exists hs r, authenticate E "bearer_header" sn cls atr c kwargs ha req = Ok (Some hs, r) /\
    dget "Authorization" hs = Some ("Bearer " ++ t)%string.
Proof.
  intros E sn cls atr c kwargs ha req t ty H N.
  change (exists hs r, bearer_header sn c kwargs ha req = Ok (Some hs, r) /\ dget "Authorization" hs = Some ("Bearer " ++ t)%string).
  unfold bearer_header. fold ty. cbn [first_given] in H.
  assert (T : truthy (VStr t) = true) by (destruct t; [congruence|reflexivity]).
  destruct (dget ty req) as [x|] eqn:E1.
  - injection H as ->. rewrite (find_token_request _ _ _ _ _ E1). cbn [rbind]. rewrite T. do 2 eexists.
    split; [reflexivity|]. apply dget_dset_eq.
  - destruct (dget "access_token" kwargs) as [x|] eqn:E2; [|discriminate]. injection H as ->.
    rewrite (find_token_kwargs _ _ _ _ _ E1 E2). cbn [rbind]. rewrite T. do 2 eexists.
    split; [reflexivity|]. apply dget_dset_eq.
Qed.
Print Assumptions C22_given_token_is_used.
Theorem C22_no_token_no_header : forall E sn cls atr c kwargs ha req,
  let ty := if sn =?s "refresh_token" then "refresh_token" else "access_token" in
  (forall t, token_in_force c kwargs ty req (VStr t) -> t = "") ->
  exists e, authenticate E "bearer_header" sn cls atr c kwargs ha req = Err e.
Proof. exact no_token. Qed.
Print Assumptions C22_no_token_no_header.
(** bearer_body: the token in force is in the body and the headers stay as they are *)
Theorem C22_bearer_body_carries_the_token_in_force : forall E sn cls atr c kwargs ha req ha' r,
  authenticate E "bearer_body" sn cls atr c kwargs ha req = Ok (ha', r) ->
  exists t, truthy t = true /\ ha' = ha /\ dget "access_token" r = Some t /\
    (token_in_force c kwargs "access_token" req t /\ (forall k, k <> "access_token" -> dget k r = dget k req) \/
     exists t0, token_in_force c kwargs "access_token" req t0 /\ truthy t0 = false /\
       token_in_force c kwargs "refresh_token" (ddel "access_token" req) t /\
       (forall k, k <> "access_token" -> k <> "refresh_token" -> dget k r = dget k req)).
Proof. exact bearer_body_full. Qed.
Print Assumptions C22_bearer_body_carries_the_token_in_force.
Theorem C22_receiver_reads_the_token : forall req t,
  dget "access_token" req = None -> bearer_auth req ("Bearer " ++ t)%string = Ok (VStr t).
Proof. exact bearer_auth_reads. Qed.
Print Assumptions C22_receiver_reads_the_token.
(** bearer_body never looks at a refresh token of the request: the missing access
    token raises first *)
Theorem C22_bearer_body_ignores_refresh_token_refuted : exists c kwargs req t,
  dget "refresh_token" req = Some (VStr t) /\ bearer_body c kwargs None req = Err (KeyError "key").
Proof. exists empty_ctx, [], [("refresh_token", VStr "r1")], "r1". vm_compute. auto. Qed.
Print Assumptions C22_bearer_body_ignores_refresh_token_refuted.

(** C23: an assertion made by the library (none is given by the caller or the request) *)
Theorem C23_assertion : forall E meth sn cls atr c kwargs ha req ha' r, In meth ["client_secret_jwt"; "private_key_jwt"] ->
  authenticate E meth sn cls atr c kwargs ha req = Ok (ha', r) ->
  dget "client_assertion" kwargs = None -> dget "client_assertion" req = None ->
  ha' = None /\ dget "client_secret" r = None /\
  dget "client_assertion_type" r = Some (VStr "urn:ietf:params:oauth:client-assertion-type:jwt-bearer") /\
  (forall k, ~ In k ["client_assertion"; "client_assertion_type"; "client_secret"; "client_id"] -> dget k r = dget k req) /\
  exists a, dget "client_assertion" r = Some (VStr a) /\ client_assertion E meth c kwargs a.
Proof. exact jws_full. Qed.
Print Assumptions C23_assertion.
(** refuted: at the token endpoint client_secret_jwt is signed with RS256 by default,
    not with an HMAC, and the caller's algorithm is ignored *)
Definition show_alg : authn_env :=
  {| ae_sgn := fun _ alg _ => alg; ae_own := [mkkey "k" "RSA"; mkkey "s" "oct"]; ae_sig_kids := []; ae_jti := "j"; ae_now := 0 |}.
Theorem C23_client_secret_jwt_algorithm_refuted : exists c kwargs ha' r,
  dget "algorithm" kwargs = Some (VStr "HS256") /\
  authenticate show_alg "client_secret_jwt" "accesstoken" cTokenRequest true c kwargs None [] = Ok (ha', r) /\
  dget "client_assertion" r = Some (VStr "RS256").
Proof.
  exists (set_provider_info [("token_endpoint", VStr "https://op/t")] empty_ctx),
    [("authn_endpoint", VStr "token_endpoint"); ("algorithm", VStr "HS256")].
  do 2 eexists. split; [reflexivity|]. split; vm_compute; reflexivity.
Qed.
Print Assumptions C23_client_secret_jwt_algorithm_refuted.
(** refuted: after a registration whose response does not repeat the signing
    algorithm no assertion can be made for the token endpoint *)
Theorem C23_registration_without_alg_raises_refuted : exists c kwargs,
  registration_response c <> [] /\ dget "token_endpoint" (provider_info c) <> None /\
  authenticate show_alg "private_key_jwt" "accesstoken" cTokenRequest true c kwargs None []
    = Err (KeyError "token_endpoint_auth_signing_alg").
Proof.
  exists (set_registration [("client_id", VStr "me")] (set_provider_info [("token_endpoint", VStr "https://op/t")] empty_ctx)),
    [("authn_endpoint", VStr "token_endpoint")].
  vm_compute. repeat split; discriminate.
Qed.
Print Assumptions C23_registration_without_alg_raises_refuted.
(** a method the library does not know raises ValueError *)
Theorem C23_unknown_method_raises : forall E meth sn cls atr c kwargs ha req,
  ~ In meth ["client_secret_basic"; "client_secret_post"; "bearer_header"; "bearer_body"; "client_secret_jwt"; "private_key_jwt"] ->
  authenticate E meth sn cls atr c kwargs ha req = Err ValueError.
Proof.
  intros E meth sn cls atr c kwargs ha req N. unfold authenticate.
  repeat match goal with |- context [meth =?s ?x] => destruct (String.eqb_spec meth x); [subst meth; exfalso; apply N; cbn; tauto|] end.
  reflexivity.
Qed.
Print Assumptions C23_unknown_method_raises.

(** ** non-vacuity *)
Definition ca_ctx : ctx :=
  set_provider_info [("issuer", VStr "https://op"); ("token_endpoint", VStr "https://op/token")]
    (set_client "the client:%é" "s3cr~t " empty_ctx).
Example basic_example : exists ha r,
  client_secret_basic cTokenRequest true ca_ctx [] None
    [("grant_type", VStr "authorization_code"); ("code", VStr "c"); ("client_secret", VStr "s3cr~t ")] = Ok (ha, r) /\
  dget "client_secret" r = None /\ dget "client_id" r = Some (VStr "the client:%é").
Proof. do 2 eexists. split; [vm_compute; reflexivity|]. vm_compute. auto. Qed.
Example jws_example : exists ha r,
  jws_authn (fun _ a _ => ("signed-" ++ a)%string) [mkkey "k1" "RSA"] [] "j" 100 "private_key_jwt" cTokenRequest
    ca_ctx [("authn_endpoint", VStr "token_endpoint")] [("code", VStr "c"); ("client_secret", VStr "x")] = Ok (ha, r) /\
  dget "client_assertion" r = Some (VStr "signed-RS256").
Proof. do 2 eexists. split; [vm_compute; reflexivity|]. vm_compute. auto. Qed.
Definition ca_db : db :=
  snd (crun [] [Create "AAAAAAAAAAAAAAAAAAAAAAAAAAAAAAAA" "https://op" "";
    Store cAuthzResponse [("access_token", VStr "old")] "auth_response" "AAAAAAAAAAAAAAAAAAAAAAAAAAAAAAAA";
    Store cTokenResponse [("access_token", VStr "new")] "token_response" "AAAAAAAAAAAAAAAAAAAAAAAAAAAAAAAA"]).
Example bearer_example :
  bearer_header "userinfo" (set_db ca_db empty_ctx) [("key", VStr "AAAAAAAAAAAAAAAAAAAAAAAAAAAAAAAA")] None []
  = Ok (Some [("Authorization", "Bearer new")], []).
Proof. vm_compute. reflexivity. Qed.
