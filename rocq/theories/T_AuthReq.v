(** Property theorems C20 - C23 for whole requests: what get_request_parameters puts
    into the headers and the body, and what the token request of a session sends.
    Specification in S_ClientAuth.v. *)
From Verif Require Import Base BaseP Json JsonP Msg M_State S_State M_Ctx M_Codec M_Authz M_ClientAuth M_Service M_Token M_Handler
  S_ClientAuth S_Service S_Token S_Handler S_Flow P_ClientAuth P_Service P_Token P_Token2 Ex.

(** the method in force: the caller's choice, else the service's *)
Definition method_in_force (s : service) (au : string) (c : ctx) (meth : string) : Prop :=
  au = meth \/ (au = "" /\ s_authn s c = meth).

Lemma grp_auth E s args m bt au kw c i c' meth : get_request_parameters E s args m bt au kw c = (Ok i, c') ->
  method_in_force s au c meth -> meth <> "" -> s_extra s = [] ->
  exists req0 kw' ha, construct s args kw c = (Ok req0, c') /\
    authenticate E meth (s_name s) (s_cls s) (s_atr s) c' kw' None req0 = Ok (ha, i_request i) /\
    (forall k, k <> "iss" -> k <> "authn_endpoint" -> dget k kw' = dget k kw) /\
    dget "authn_endpoint" kw' = Some (VStr (s_endpoint_name s)) /\
    (forall k, k <> "Content-Type" -> dget k (i_headers i) = dget k (match ha with Some h => h | None => [] end)).
Proof.
  intros H MF Ne Ex. apply grp_inv in H. cbv zeta in H.
  destruct H as (req0 & c1 & h & req1 & ep & H1 & H2 & H3 & H4 & H5 & H6 & H7).
  assert (AU : (if au =?s "" then s_authn s c else au) = meth).
  { destruct MF as [->|[-> <-]]; [|reflexivity]. destruct (String.eqb_spec meth ""); [congruence|reflexivity]. }
  rewrite AU in *. unfold get_headers, bind, asks, ret in H2. rewrite Ex in H2.
  destruct (String.eqb_spec meth ""); [congruence|].
  set (kw' := dset "authn_endpoint" (VStr (s_endpoint_name s)) (if issuer c1 =?s "" then kw else dset "iss" (VStr (issuer c1)) kw)) in *.
  unfold get_authn_header, rbind in H2. destruct (String.eqb_spec meth ""); [congruence|].
  destruct (authenticate E meth (s_name s) (s_cls s) (s_atr s) c1 kw' None req0) as [[ha r]|] eqn:EA; [|discriminate].
  cbn [run_headers fst snd] in H2. unfold ret in H2. injection H2 as <- <- <-.
  exists req0, kw', ha. split; [exact H1|]. split; [now rewrite H5|]. split.
  { intros k N1 N2. unfold kw'. rewrite dget_dset_neq by congruence. destruct (issuer c1 =?s ""); [reflexivity|]. apply dget_dset_neq. congruence. }
  split; [apply dget_dset_eq|].
  intros k Hk. destruct ((if m =?s "" then s_http_method s else m) =?s "POST").
  - destruct H7 as (b & _ & _ & ->). apply dget_dset_neq. congruence.
  - destruct H7 as [_ ->]. reflexivity.
Qed.

(** C20: with client_secret_basic the request has a header that reads back as the user
    and password in force, and no secret in the message *)
Theorem C20_request_header : forall E s args m bt au kw c i c',
  get_request_parameters E s args m bt au kw c = (Ok i, c') ->
  method_in_force s au c "client_secret_basic" -> s_extra s = [] ->
  exists req u p h, construct s args kw c = (Ok req, c') /\
    user_in_force c' kw = Some (VStr u) /\ password_in_force c' req kw = Some (VStr p) /\
    dget "Authorization" (i_headers i) = Some h /\ read_basic h = Some (u, p) /\ dget "client_secret" (i_request i) = None.
Proof.
  intros E s args m bt au kw c i c' H MF X.
  destruct (grp_auth _ _ _ _ _ _ _ _ _ _ _ H MF ltac:(discriminate) X) as (req & kw' & ha & G1 & G2 & G3 & G4 & G5).
  destruct (basic_full _ _ _ _ _ _ _ _ _ _ G2) as (u & p & hs & h & B1 & B2 & -> & B4 & B5 & _ & B7 & _).
  exists req, u, p, h. unfold user_in_force, password_in_force in *. rewrite !G3 in B1, B2 by discriminate.
  rewrite G5 by discriminate. auto 10.
Qed.
Print Assumptions C20_request_header.

(** C22: with bearer_header the request carries the token in force *)
Theorem C22_request_header : forall E s args m bt au kw c i c',
  get_request_parameters E s args m bt au kw c = (Ok i, c') ->
  method_in_force s au c "bearer_header" -> s_extra s = [] ->
  let ty := if s_name s =?s "refresh_token" then "refresh_token" else "access_token" in
  exists req t, construct s args kw c = (Ok req, c') /\ token_in_force c' kw ty req (VStr t) /\ t <> "" /\
    dget "Authorization" (i_headers i) = Some ("Bearer " ++ t)%string /\ dget ty (i_request i) = None.
Proof.
  intros E s args m bt au kw c i c' H MF X ty.
  destruct (grp_auth _ _ _ _ _ _ _ _ _ _ _ H MF ltac:(discriminate) X) as (req & kw' & ha & G1 & G2 & G3 & G4 & G5).
  destruct (bearer_full _ _ _ _ _ _ _ _ _ _ G2) as (t & hs & B1 & B2 & -> & B4 & _ & B6 & _).
  exists req, t. split; [exact G1|]. split; [|rewrite G5 by discriminate; auto].
  fold ty in B1. inversion B1 as [x I1|x I1 I2|key x I1 I2 I3 I4]; subst.
  - now apply tif_request.
  - apply tif_caller; [exact I1|]. now rewrite <- G3 by discriminate.
  - apply (tif_session _ _ _ _ key); try assumption; now rewrite <- G3 by discriminate.
Qed.
Print Assumptions C22_request_header.

(** C23: with a signed JWT the request carries an assertion made for the endpoint of
    the service, and neither an authorization header nor the secret *)
Theorem C23_request_assertion : forall E s args m bt au kw c i c' meth req,
  In meth ["client_secret_jwt"; "private_key_jwt"] ->
  get_request_parameters E s args m bt au kw c = (Ok i, c') ->
  method_in_force s au c meth -> s_extra s = [] ->
  construct s args kw c = (Ok req, c') -> dget "client_assertion" kw = None -> dget "client_assertion" req = None ->
  dget "Authorization" (i_headers i) = None /\ dget "client_secret" (i_request i) = None /\
  dget "client_assertion_type" (i_request i) = Some (VStr "urn:ietf:params:oauth:client-assertion-type:jwt-bearer") /\
  exists a kw', dget "client_assertion" (i_request i) = Some (VStr a) /\ client_assertion E meth c' kw' a /\
    (at_token_endpoint kw' <-> s_endpoint_name s = "token_endpoint") /\
    (forall k, In k ["algorithm"; "lifetime"] -> dget k kw' = dget k kw).
Proof.
  intros E s args m bt au kw c i c' meth req I H MF X C K R.
  assert (Ne : meth <> "") by (destruct I as [<-|[<-|[]]]; discriminate).
  destruct (grp_auth _ _ _ _ _ _ _ _ _ _ _ H MF Ne X) as (req' & kw' & ha & G1 & G2 & G3 & G4 & G5).
  rewrite C in G1. injection G1 as <-.
  destruct (jws_full _ _ _ _ _ _ _ _ _ _ _ I G2) as (-> & B2 & B3 & _ & a & B4 & B5); [now rewrite G3 by discriminate|exact R|].
  rewrite G5 by discriminate. repeat (split; [easy|]). exists a, kw'. split; [exact B4|]. split; [exact B5|]. split.
  - unfold at_token_endpoint. rewrite G4. split; intros Y; congruence.
  - intros k [<-|[<-|[]]]; now apply G3.
Qed.
Print Assumptions C23_request_assertion.

(** ** the token request of a session *)
Lemma method_default W cl c au : client_authn_method c = Ok au ->
  (auth_method_is c "client_secret_basic" \/ dget "token_endpoint_auth_method" (behaviour c) = None) ->
  method_in_force (token_svc W cl) au c "client_secret_basic".
Proof.
  unfold client_authn_method, auth_method_is. intros H [(v & E & D)|E]; rewrite E in H.
  - left. destruct D as [->|[r ->]]; congruence.
  - injection H as <-. right. split; [reflexivity|].
    assert (A : s_authn (token_svc W cl) c = token_authn_method "client_secret_basic" c).
    { unfold token_svc, with_pkce, oidc_token_service. destruct (cl_pkce cl); reflexivity. }
    rewrite A. unfold token_authn_method. rewrite E. reflexivity.
Qed.
Lemma method_given W cl c au meth : client_authn_method c = Ok au -> auth_method_is c meth ->
  method_in_force (token_svc W cl) au c meth.
Proof. unfold client_authn_method, auth_method_is. intros H (v & E & D). rewrite E in H. left. destruct D as [->|[r ->]]; congruence. Qed.
Lemma tokens_only_send W cl st c (P : string -> string -> option body -> headers -> Prop) :
  (forall code ru am i c1, client_authn_method c = Ok am ->
     get_request_parameters (e_authn W) (token_svc W cl) (tok_args c st code ru) "" "" am [("state", VStr st)] c = (Ok i, c1) ->
     P (i_url i) (i_method i) (i_body i) (i_headers i)) ->
  only_sends (fun http => get_tokens (with_http W http) cl st) c P.
Proof.
  intros H http1 http2 HP. unfold get_tokens.
  destruct (get_item (sdb c) cAuthzResponse "auth_response" st) as [ar|]; [|reflexivity].
  destruct (get_item (sdb c) cAuthzRequest "auth_request" st) as [rq|]; [|reflexivity]. cbn [rbind].
  destruct (dict_get "code" ar) as [code|]; [|reflexivity]. destruct (dict_get "redirect_uri" rq) as [ru|]; [|reflexivity]. cbn [rbind].
  destruct (client_authn_method c) as [am|] eqn:EA; [|reflexivity]. cbn [rbind]. unfold bind, do_request_named.
  change (token_svc (with_http W http1) cl) with (token_svc W cl). change (token_svc (with_http W http2) cl) with (token_svc W cl).
  destruct (has_service cl (s_name (token_svc W cl))); [|reflexivity].
  cbn [e_authn e_http e_jwt with_http]. fold (tok_args c st code ru).
  assert (X : do_request (e_authn W) http1 (e_jwt W) (token_svc W cl) "" (tok_args c st code ru) am [("state", VStr st)] c =
              do_request (e_authn W) http2 (e_jwt W) (token_svc W cl) "" (tok_args c st code ru) am [("state", VStr st)] c).
  { eapply (do_request_sends (e_authn W) (e_jwt W) (token_svc W cl)); [|exact HP]. intros i c1 Hi. eapply H; eauto. }
  now rewrite X.
Qed.

(** C20, C21: every request of get_tokens of a client that uses client_secret_basic
    (the default) authenticates with its own client identifier and secret, and the
    secret is not in the body *)
Theorem C20_token_request_credentials : forall W cl st c, client_secret c <> "" ->
  (auth_method_is c "client_secret_basic" \/ dget "token_endpoint_auth_method" (behaviour c) = None) ->
  only_sends (fun http => get_tokens (with_http W http) cl st) c
    (fun u m b h => (exists hd, dget "Authorization" h = Some hd /\ read_basic hd = Some (client_id c, client_secret c)) /\
       exists txt, b = Some (BText txt) /\ form_lacks txt "client_secret").
Proof.
  intros W cl st c Ns MF. apply tokens_only_send. intros code ru am i c1 EA Hi.
  destruct (token_svc_fields W cl) as (T1 & T2 & T3 & _).
  destruct (post_form _ _ _ _ _ _ _ _ T1 T2 T3 Hi) as (req0 & txt & P1 & _ & P3 & _ & _ & _ & P7 & _).
  destruct (token_construct _ _ _ _ _ _ _ (is_token_svc W cl) (tok_args_NoDup c st code ru) P1) as (-> & N & G & _).
  destruct (C20_request_header _ _ _ _ _ _ _ _ _ _ Hi (method_default W cl c am EA MF) T3) as (req & u & p & h & Q1 & Q2 & Q3 & Q4 & Q5 & Q6).
  rewrite P1 in Q1. injection Q1 as <-. split.
  - exists h. split; [exact Q4|]. rewrite Q5. cbn in Q2. injection Q2 as <-.
    unfold password_in_force in Q3.
    assert (S : dget "client_secret" req0 = Some (VStr (client_secret c))).
    { apply G; [discriminate|reflexivity|]. destruct (client_secret c); [congruence|reflexivity]. }
    change (first_given [None; dget "client_secret" req0; Some (VStr (client_secret c))] = Some (VStr p)) in Q3.
    rewrite S in Q3. cbn in Q3. now injection Q3 as <-.
  - exists txt. split; [exact P3|]. now apply P7.
Qed.
Print Assumptions C20_token_request_credentials.

(** C23: every request of get_tokens of a client that uses private_key_jwt or
    client_secret_jwt carries an assertion by this client for the token endpoint that
    the provider published, and no secret *)
Theorem C23_token_request_assertion : forall W cl st c meth ep,
  In meth ["client_secret_jwt"; "private_key_jwt"] -> auth_method_is c meth ->
  dget "token_endpoint" (provider_info c) = Some (VStr ep) ->
  (forall ks alg claims, ae_sgn (e_authn W) ks alg claims <> "") ->
  (forall args req, construct (token_svc W cl) args [("state", VStr st)] c = (Ok req, c) -> dget "client_assertion" req = None) ->
  only_sends (fun http => get_tokens (with_http W http) cl st) c
    (fun u m b h => u = ep /\ dget "Authorization" h = None /\
       exists txt ks alg claims, b = Some (BText txt) /\ form_lacks txt "client_secret" /\
       form_has txt "client_assertion_type" "urn:ietf:params:oauth:client-assertion-type:jwt-bearer" /\
       form_has txt "client_assertion" (ae_sgn (e_authn W) ks alg claims) /\
       dget "iss" claims = Some (VStr (client_id c)) /\ dget "sub" claims = Some (VStr (client_id c)) /\
       dget "aud" claims = Some (VStr ep) /\ dget "exp" claims = Some (VInt (ae_now (e_authn W) + 600)) /\
       (forall k, In k ks -> In k (ae_own (e_authn W)))).
Proof.
  intros W cl st c meth ep I AM EP SG NC. apply tokens_only_send. intros code ru am i c1 EA Hi.
  destruct (token_svc_fields W cl) as (T1 & T2 & T3 & T4 & T5 & _).
  destruct (post_form _ _ _ _ _ _ _ _ T1 T2 T3 Hi) as (req0 & txt & P1 & _ & P3 & P4 & _ & P6 & P7 & P8).
  destruct (token_construct _ _ _ _ _ _ _ (is_token_svc W cl) (tok_args_NoDup c st code ru) P1) as (-> & N & G & _).
  destruct (C23_request_assertion _ _ _ _ _ _ _ _ _ _ _ _ I Hi (method_given W cl c am meth EA AM) T3 P1 eq_refl (NC _ _ P1))
    as (Q1 & Q2 & Q3 & a & kw' & Q4 & (ks & alg & cm & aud & life & -> & A2 & A3 & _ & _ & [A6 _] & A7 & A8 & A9 & A10 & _ & A12 & _) & Q6 & Q7).
  split.
  { cbn [dget] in P8. unfold get_endpoint in P8. rewrite T4, T5 in P8. cbn [String.eqb eqs] in P8. unfold dict_get in P8.
    change (if "state" =?s "endpoint" then Some (VStr st) else None) with (@None val) in P8. cbv iota in P8.
    rewrite EP in P8. congruence. }
  split; [exact Q1|]. exists txt, ks, alg, cm. split; [exact P3|]. split; [now apply P7|].
  split; [apply (P6 (P4 N)); [exact Q3|discriminate]|]. split; [apply (P6 (P4 N)); [exact Q4|apply SG]|].
  split; [exact A8|]. split; [exact A9|]. split; [rewrite A10; f_equal; rewrite A6 in EP by (now apply Q6); congruence|].
  split; [|exact A3]. rewrite Q7 in A7 by (cbn; tauto). change (life = 600%Z) in A7. now subst life.
Qed.
Print Assumptions C23_token_request_assertion.

(** ** the hypotheses are met: the example session of Ex.v uses client_secret_basic *)
Example ex_C20_request : client_secret ex_c2 <> "" /\ dget "token_endpoint_auth_method" (behaviour ex_c2) = None /\
  exists r, fst (get_tokens ex_env ex_client ex_state ex_c2) = Ok r.
Proof.
  split; [|split; [vm_compute; reflexivity|eexists; vm_compute; reflexivity]].
  assert (X : client_secret ex_c2 = "s3cret") by (vm_compute; reflexivity). rewrite X. discriminate.
Qed.
