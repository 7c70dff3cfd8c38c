(** Property theorem C75: a login at an honest provider completes.
    Proofs in P_Honest*.v, specification in S_Honest.v. *)
From Verif Require Import Base BaseP Json JsonP Msg M_State S_State P_State M_Ctx M_Codec M_Authz M_ClientAuth M_Service M_Token M_Handler
  S_Service S_Token S_Handler S_Flow S_Trace S_Sched S_Retry P_Ctx P_Authz P_Codec P_ClientAuth P_Service P_Wire P_Token
  P_Token2 P_Handler P_Flow P_Trace P_Flow2 P_Handler2 P_Handler3 P_Handler4 P_Sim P_SimK P_Sched P_Retry S_Traffic S_Honest P_Honest P_Honest2 P_Honest3 P_Honest4 Ex T_Flow.

(** C75: a client makes any calls ([os0]), begins the login [k] at its provider, makes any
    other calls ([os1]: other logins at the same provider, in whatever state, with whatever
    peers), and then gets the authorization code of [k].  The provider is honest: its token
    endpoint answers a request that redeems this code, with the client's secret, the redirect
    URI of the request and, with PKCE, a verifier that fits the challenge of the request, by
    an access token and an ID Token that has the nonce of this login and passes verification;
    its UserInfo endpoint answers requests with that token by claims about the same user.
    Then finalize gives the user, the session, the token and the ID Token: nothing that
    happened before or in between makes it fail.
    [get_state_by_nonce]: the nonce of the ID Token is known as one of this login, see
    C75_nonce_of_the_login_is_known. *)
Theorem C75_honest_login_completes : forall cl os0 os1 c0 W0 W reqs beh u k c1 resp collect code ru n sub tok tm um idt rq ch meth,
  plain_client cl -> sdb c0 = [] -> Forall call_ok os0 -> Forall call_ok os1 ->
  rnd32 (e_state W0) -> (forall m v, e_hash W0 m v <> "") ->
  init_authorization W0 cl reqs beh (run_calls cl os0 c0) = (Ok (u, k), c1) ->
  (forall o, In o os1 -> leaves k o) -> issuer c0 <> "" ->
  (* the authorization request of the login: the code flow *)
  get_item (sdb c1) cAuthzRequest "auth_request" k = Ok rq -> dget "redirect_uri" rq = Some (VStr ru) -> ru <> "" ->
  dget "response_type" rq = Some (VList [VStr "code"]) ->
  (cl_pkce cl = true -> dget "code_challenge" rq = Some (VStr ch) /\ dget "code_challenge_method" rq = Some (VStr meth) /\
     exists len m, pkce_setting c0 len m /\ 0 < len) ->
  (* the client *)
  has_service cl "accesstoken" = true -> uses_secret c0 ->
  (* the provider *)
  code_response k code resp -> (forall ar, msg_new cAuthzResponse resp = Ok ar -> verifies W "authorization" ar ar) ->
  token_endpoint_honest W c0 code ru (if cl_pkce cl then Some (pkce_check (e_hash W0) ch meth) else None) tm ->
  token_answer tok tm -> id_claims n sub idt ->
  (forall m, msg_new cTokenResponse tm = Ok m -> verifies W "accesstoken" m (dset (verified "id_token") (VDict idt) m)) ->
  get_state_by_nonce (sdb (run_calls cl os1 c1)) n = Ok k ->
  (has_service cl "userinfo" = true -> dget "pre_construct" (conf_of cl "userinfo") = None /\ userinfo_endpoint_honest W c0 tok um /\
     about_user sub um /\ (forall m, msg_new cMessage um = Ok m -> verifies W "userinfo" m m)) ->
  exists info ss c', finalize W cl (issuer c0) resp collect (run_calls cl os1 c1) = (Ok (FOk info (VStr k) (VStr tok) (VDict idt) ss), c') /\
    (has_service cl "userinfo" = true -> shows um info).
Proof.
  intros cl os0 os1 c0 W0 W reqs beh u k c1 resp collect code ru n sub tok tm um idt rq ch meth PC E0 OK0 OK1 K HH H LV IS RQ RU Rne RT PK HT US CR VA TE TA IC VT NC UI.
  destruct (login_completes cl os0 os1 c0 W0 W reqs beh u k c1 PC E0 OK0 OK1 K HH H LV IS resp collect code ru n sub tok tm um idt rq ch meth
    RQ RU Rne RT PK HT US CR VA TE TA IC VT NC UI) as (info & ss & c' & F & S).
  exists info, ss, c'. split; [exact F|]. intros HU p v Hp N1 N2. specialize (S HU). destruct (UI HU) as (_ & _ & (U & _) & _).
  rewrite (msg_new_get _ _ _ U S), Hp.
  assert (SK : skipped v = false) by (destruct v as [| | |[]|[|[| | |[]| |] []]|]; try reflexivity; congruence). now rewrite SK.
Qed.
Print Assumptions C75_honest_login_completes.

(** C75: the nonce of the login, which is made by the client or chosen by its caller or its
    configuration, is known as such when the answer comes, unless another login was begun
    with the same nonce, or logins were forgotten, in between. *)
Theorem C75_nonce_of_the_login_is_known : forall cl os0 os1 c0 W0 reqs beh u k c1 n l s w ws,
  plain_client cl -> sdb c0 = [] -> Forall call_ok os0 -> Forall call_ok os1 ->
  rnd32 (e_state W0) -> (forall m v, e_hash W0 m v <> "") -> uniq reqs -> config_uniq c0 ->
  chosen c0 reqs "nonce" (Some (VStr (e_nonce W0))) = Some (VStr n) -> n <> "" ->
  chosen c0 reqs "scope" (dget "scope" (behaviour c0)) = Some (VList l) ->
  chosen c0 reqs "response_type" (first_response_type c0) = Some (VStr s) ->
  split_on " "%char s = w :: ws -> contains "id_token" w || contains "code" w = true ->
  init_authorization W0 cl reqs beh (run_calls cl os0 c0) = (Ok (u, k), c1) ->
  (forall o, In o os1 -> leaves k o) -> issuer c0 <> "" -> (forall o, In o os1 -> no_other_login c0 n o) ->
  get_state_by_nonce (sdb (run_calls cl os1 c1)) n = Ok k.
Proof.
  intros cl os0 os1 c0 W0 reqs beh u k c1 n l s w ws PC E0 OK0 OK1 K HH U CU HN Ne HS HR Hw HW H LV IS NO.
  destruct (begun cl os0 os1 c0 W0 reqs beh u k c1 PC E0 OK0 OK1 K HH H LV IS) as (_ & _ & _ & _ & C1 & CL & _).
  rewrite (nonce_still cl os1 c0 c1 n PC OK1 CL C1 NO).
  assert (HK0 : run_calls cl os0 c0 = set_db (sdb (run_calls cl os0 c0)) c0) by (apply history_keeps; auto; rewrite E0; apply closed_nil).
  rewrite HK0 in H. eapply (own_nonce_bound W0 cl reqs beh (set_db (sdb (run_calls cl os0 c0)) c0)); [exact K|exact (proj1 PC)|exact HH|exact U|exact CU|exact HN|exact Ne|exact HS|exact HR|exact Hw|exact HW|exact H].
Qed.
Print Assumptions C75_nonce_of_the_login_is_known.

(** the hypotheses are met: a login, with PKCE, while another login of the same client is
    begun and its response comes with the wrong code *)
Definition ho_c1 : ctx := snd (init_authorization ex_env ex_client [] None (run_calls ex_client [CInit ex_env2 [] None] ex_ctx)).
Definition ho_um : dict val := [("sub", VStr "u1"); ("email", VStr "u1@example.org")].
Definition ho_ch : string := b64e (e_hash ex_env "S256" (unreserved (e_rand ex_env) 64)).
Example ex_C75 : exists u rq,
  init_authorization ex_env ex_client [] None (run_calls ex_client [CInit ex_env2 [] None] ex_ctx) = (Ok (u, ex_state), ho_c1) /\
  get_item (sdb ho_c1) cAuthzRequest "auth_request" ex_state = Ok rq /\ dget "redirect_uri" rq = Some (VStr "https://rp.example/cb") /\
  dget "response_type" rq = Some (VList [VStr "code"]) /\ dget "code_challenge" rq = Some (VStr ho_ch) /\
  dget "code_challenge_method" rq = Some (VStr "S256") /\ dget "nonce" rq = Some (VStr ex_nonce).
Proof. eexists. eexists. vm_compute. repeat (split; [reflexivity|]). reflexivity. Qed.
Example ex_C75_hypotheses :
  uses_secret ex_ctx /\ code_response ex_state "c0de" ex_resp /\ (forall ar, msg_new cAuthzResponse ex_resp = Ok ar -> verifies ex_env "authorization" ar ar) /\
  token_endpoint_honest ex_env ex_ctx "c0de" "https://rp.example/cb" (Some (pkce_check (e_hash ex_env) ho_ch "S256")) ex_answer /\
  token_answer "AT1" ex_answer /\ id_claims ex_nonce "u1" ex_idt /\
  (forall m, msg_new cTokenResponse ex_answer = Ok m -> verifies ex_env "accesstoken" m (dset (verified "id_token") (VDict ex_idt) m)) /\
  (forall o, In o ex_between -> no_other_login ex_ctx ex_nonce o) /\
  userinfo_endpoint_honest ex_env ex_ctx "AT1" ho_um /\ about_user "u1" ho_um /\
  (forall m, msg_new cMessage ho_um = Ok m -> verifies ex_env "userinfo" m m).
Proof.
  split; [split; [discriminate|split; [discriminate|left; reflexivity]]|].
  split; [split; [unfold uniq; cbn; repeat (constructor; [cbn; intuition discriminate|]); constructor|repeat (split; [reflexivity||discriminate|]); reflexivity]|].
  split; [intros ar Ea c; injection Ea as <-; reflexivity|].
  split. { exists "https://op.example/token". split; [reflexivity|]. intros b h _. reflexivity. }
  split; [split; [unfold uniq; cbn; repeat (constructor; [cbn; intuition discriminate|]); constructor|split; [reflexivity|split; [discriminate|split; [reflexivity|cbn; eauto]]]]|].
  split; [split; [reflexivity|split; [reflexivity|left; reflexivity]]|].
  split; [intros m Em c; injection Em as <-; reflexivity|].
  split. { cbn. intros o [<-|[<-|[<-|[]]]]; cbn; auto. unfold uses_nonce. vm_compute. intuition discriminate. }
  split. { exists "https://op.example/userinfo". split; [reflexivity|]. intros u b h A _. cbn [e_http ex_env]. unfold ex_http.
    destruct (String.eqb_spec u "https://op.example/token") as [->|]; [vm_compute in A; discriminate|reflexivity]. }
  split; [split; [unfold uniq; cbn; repeat (constructor; [cbn; intuition discriminate|]); constructor|repeat (split; [reflexivity||discriminate|]); reflexivity]|].
  intros m Em c. injection Em as <-. reflexivity.
Qed.
(** and the login gives the user *)
Example ex_C75_result : fst (finalize ex_env ex_client "https://op.example" ex_resp false (run_calls ex_client ex_between ho_c1)) =
  Ok (FOk ho_um (VStr ex_state) (VStr "AT1") (VDict ex_idt) (VStr "")).
Proof. vm_compute. reflexivity. Qed.
