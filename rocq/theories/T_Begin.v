(** Property theorems C76: a login begins, and its URL leads to the user.
    Proofs in P_Begin*.v, specification in S_Begin.v, S_Honest.v and S_Flow.v. *)
From Verif Require Import Base BaseP Json JsonP Msg M_State S_State P_State M_Ctx M_Codec M_Authz M_ClientAuth M_Service M_Token M_Handler
  S_Service S_Token S_Handler S_Flow S_Trace S_Sched S_Retry P_Ctx P_Authz P_Codec P_ClientAuth P_Service P_Wire P_Token
  P_Token2 P_Handler P_Flow P_Trace P_Flow2 P_Handler2 P_Handler3 P_Handler4 P_Sim P_SimK P_Sched P_Retry S_Traffic S_Honest P_Honest P_Honest2 P_Honest3 P_Honest4
  S_Begin P_Begin P_Begin2 Ex T_Flow T_Honest.

Lemma reached_client cl os c0 : plain_client cl -> sdb c0 = [] -> Forall call_ok os ->
  run_calls cl os c0 = set_db (sdb (run_calls cl os c0)) c0 /\ closed rnd32 (sdb (run_calls cl os c0)) /\ exists a, rel rnd32 (sdb (run_calls cl os c0)) a.
Proof.
  intros PC E OK. split; [apply history_keeps; auto; rewrite E; apply closed_nil|]. split; [now apply closed_reach|].
  destruct (calls_from_empty cl os c0 PC OK E) as (ops & F & ->). eexists. exact (proj2 (run_rel rnd32 rnd32_family ops [] ainit (rel_init rnd32) F)).
Qed.

(** C76: whatever calls were made before, a client that is set up begins a login: it gets a
    URL and the new state. *)
Theorem C76_login_begins : forall W cl os c0 reqs beh,
  plain_client cl -> sdb c0 = [] -> Forall call_ok os -> rnd32 (e_state W) ->
  set_up cl c0 -> fair_args W c0 reqs -> no_request_object beh ->
  exists u c', init_authorization W cl reqs beh (run_calls cl os c0) = (Ok (u, e_state W), c').
Proof.
  intros W cl os c0 reqs beh PC E OK K SU FA NR. destruct (reached_client cl os c0 PC E OK) as (HC & CL & A).
  apply login_begins; auto; [exact (proj1 PC)|rewrite HC; exact SU|rewrite HC; exact FA].
Qed.
Print Assumptions C76_login_begins.

(** C76: from the URL to the user.  The client is set up and uses the code flow; its provider
    sees nothing but the URL [u] the login gave, and acts on what it says: its token endpoint
    answers a request that redeems the code with the redirect URI in the URL (and, with PKCE,
    a verifier that fits the challenge in the URL) by an ID Token with the nonce in the URL;
    the authorization response has the state in the URL.  Then the user is logged in, whatever
    other logins, at the same provider, were begun, completed or refused meanwhile. *)
Theorem C76_from_the_url_to_the_user : forall cl os0 os1 c0 W0 W reqs beh u k c1 ep resp collect code ru n sub tok tm um idt ch meth,
  plain_client cl -> sdb c0 = [] -> Forall call_ok os0 -> Forall call_ok os1 ->
  rnd32 (e_state W0) -> (forall m v, e_hash W0 m v <> "") ->
  (* the client *)
  set_up cl c0 -> fair_args W0 c0 reqs -> no_request_object beh ->
  dget "authorization_endpoint" (provider_info c0) = Some (VStr ep) -> u_query (urlsplit ep) = "" ->
  chosen c0 reqs "response_type" (first_response_type c0) = Some (VStr "code") ->
  (cl_pkce cl = true -> exists len m, pkce_setting c0 len m /\ 0 < len) ->
  has_service cl "accesstoken" = true -> uses_secret c0 ->
  (* the login is begun; what the other calls are about *)
  init_authorization W0 cl reqs beh (run_calls cl os0 c0) = (Ok (u, k), c1) ->
  (forall o, In o os1 -> leaves k o /\ no_other_login c0 n o) ->
  (* the URL *)
  query_has u "redirect_uri" ru -> query_has u "nonce" n ->
  (cl_pkce cl = true -> query_has u "code_challenge" ch /\ query_has u "code_challenge_method" meth) ->
  (* the provider *)
  (forall s, query_has u "state" s -> code_response s code resp) ->
  (forall ar, msg_new cAuthzResponse resp = Ok ar -> verifies W "authorization" ar ar) ->
  token_endpoint_honest W c0 code ru (if cl_pkce cl then Some (pkce_check (e_hash W0) ch meth) else None) tm ->
  token_answer tok tm -> id_claims n sub idt ->
  (forall m, msg_new cTokenResponse tm = Ok m -> verifies W "accesstoken" m (dset (verified "id_token") (VDict idt) m)) ->
  (has_service cl "userinfo" = true -> dget "pre_construct" (conf_of cl "userinfo") = None /\ userinfo_endpoint_honest W c0 tok um /\
     about_user sub um /\ (forall m, msg_new cMessage um = Ok m -> verifies W "userinfo" m m)) ->
  exists info ss c', finalize W cl (issuer c0) resp collect (run_calls cl os1 c1) = (Ok (FOk info (VStr k) (VStr tok) (VDict idt) ss), c') /\
    (has_service cl "userinfo" = true -> shows um info).
Proof.
  intros cl os0 os1 c0 W0 W reqs beh u k c1 ep resp collect code ru n sub tok tm um idt ch meth PC E0 OK0 OK1 K HH SU FA NR EP Q RT PK HT US H O RU NN CH CR VA TE TA IC VT UI.
  destruct (reached_client cl os0 c0 PC E0 OK0) as (HC & CL & _).
  assert (UA := H). rewrite HC in UA.
  destruct (url_and_store W0 cl reqs beh (set_db (sdb (run_calls cl os0 c0)) c0) u k c1 ep K (proj1 PC) HH SU FA NR EP Q RT UA)
    as (rq & G & R1 & ST & XR & _ & XN & _ & XC).
  destruct (XR ru RU) as (R2 & Rne).
  assert (LV : forall o, In o os1 -> leaves k o) by (intros o Ho; exact (proj1 (O o Ho))).
  assert (NO : forall o, In o os1 -> no_other_login c0 n o) by (intros o Ho; exact (proj2 (O o Ho))).
  assert (IS : issuer c0 <> "") by exact (proj1 SU).
  destruct (begun cl os0 os1 c0 W0 reqs beh u k c1 PC E0 OK0 OK1 K HH H LV IS) as (_ & _ & _ & _ & C1 & CL1 & _).
  eapply (C75_honest_login_completes cl os0 os1 c0 W0 W reqs beh u k c1 resp collect code ru n sub tok tm um idt rq ch meth); eauto.
  - intros CP. destruct (CH CP) as (Y1 & Y2). destruct (proj2 (XC CP) ch meth Y1 Y2) as (Z1 & Z2). split; [exact Z1|split; [exact Z2|exact (PK CP)]].
  - rewrite (nonce_still cl os1 c0 c1 n PC OK1 CL1 C1 NO). exact (XN n NN).
Qed.
Print Assumptions C76_from_the_url_to_the_user.

(** C76: the URL does say these things: the state, the redirect URI, the nonce and, with PKCE,
    the challenge and its method *)
Theorem C76_the_url_says_all_that : forall cl os c0 W reqs beh u k c1 ep,
  plain_client cl -> sdb c0 = [] -> Forall call_ok os -> rnd32 (e_state W) -> (forall m v, e_hash W m v <> "") ->
  set_up cl c0 -> fair_args W c0 reqs -> no_request_object beh ->
  dget "authorization_endpoint" (provider_info c0) = Some (VStr ep) -> u_query (urlsplit ep) = "" ->
  chosen c0 reqs "response_type" (first_response_type c0) = Some (VStr "code") ->
  init_authorization W cl reqs beh (run_calls cl os c0) = (Ok (u, k), c1) ->
  query_has u "state" k /\ (exists ru, query_has u "redirect_uri" ru) /\ (exists n, query_has u "nonce" n) /\
  (cl_pkce cl = true -> exists ch meth, query_has u "code_challenge" ch /\ query_has u "code_challenge_method" meth).
Proof.
  intros cl os c0 W reqs beh u k c1 ep PC E0 OK K HH SU FA NR EP Q RT H.
  destruct (reached_client cl os c0 PC E0 OK) as (HC & _ & _). rewrite HC in H.
  destruct (url_and_store W cl reqs beh (set_db (sdb (run_calls cl os c0)) c0) u k c1 ep K (proj1 PC) HH SU FA NR EP Q RT H)
    as (rq & _ & _ & ST & _ & X1 & _ & X2 & X3).
  split; [exact ST|split; [exact X1|split; [exact X2|]]]. intros CP. exact (proj1 (X3 CP)).
Qed.
Print Assumptions C76_the_url_says_all_that.

(** the hypotheses are met by the client of the examples, with PKCE *)
Example ex_C76_set_up : set_up ex_client ex_ctx /\ fair_args ex_env ex_ctx [] /\ no_request_object None /\
  chosen ex_ctx [] "response_type" (first_response_type ex_ctx) = Some (VStr "code").
Proof.
  split.
  { split; [discriminate|]. split; [discriminate|]. split; [eexists; reflexivity|].
    split; [eexists; eexists; split; [reflexivity|discriminate]|]. split; [eexists; split; [reflexivity|discriminate]|].
    split; [eexists; reflexivity|]. intros _. exists 64, "S256". split; [|cbn; auto]. eexists. split; [reflexivity|split; [exists 64%Z; split; reflexivity|reflexivity]]. }
  split. { split; [constructor|]. split; [intros d Hd; discriminate Hd|]. split; [discriminate|].
    split; [intros p _ v Hv; vm_compute in Hv; discriminate|intros v Hv; vm_compute in Hv; discriminate]. }
  split; [exact I|reflexivity].
Qed.
(** the URL of the login of [ex_C75] has its redirect URI, nonce and challenge *)
Example ex_C76_url : exists u,
  init_authorization ex_env ex_client [] None (run_calls ex_client [CInit ex_env2 [] None] ex_ctx) = (Ok (u, ex_state), ho_c1) /\
  query_has u "redirect_uri" "https://rp.example/cb" /\ query_has u "nonce" ex_nonce /\ query_has u "state" ex_state /\
  query_has u "code_challenge" ho_ch /\ query_has u "code_challenge_method" "S256".
Proof. eexists. vm_compute. repeat (split; [reflexivity|]). reflexivity. Qed.
