(** C62: logins with the plain OAuth2 services, and those with GitHub and LinkedIn. *)
From Verif Require Import Base BaseP Json JsonP Msg M_State S_State P_State M_Ctx M_Codec M_Authz M_ClientAuth
  M_Service M_Token M_Handler M_OAuth S_Service S_Token S_Handler S_Flow S_Trace S_OAuth P_Ctx P_Authz P_Codec P_ClientAuth P_Service P_Wire
  P_Token P_Handler P_Flow P_Token2 P_Trace P_Flow2 P_Handler2 P_Handler3 P_Handler4 P_OAuth P_OAuth2 P_OAuth3 Ex.

(** ** the authorization request *)
Theorem C62_request_begins_a_session : forall W cl reqs beh c u st c', rnd32 (e_state W) ->
  plain_conf (conf_of cl "authorization") -> no_state beh -> (forall m v, e_hash W m v <> "") ->
  oauth_init W cl reqs beh c = (Ok (u, st), c') ->
  st = e_state W /\
  (issuer c <> "" -> get_iss (sdb c') st = Ok (VStr (issuer c))) /\
  get_state_by_nonce (sdb c') (e_nonce W) = Ok st /\
  (forall k, rnd32 k -> k <> st -> get_state (sdb c') k = get_state (sdb c) k) /\
  (exists rq, get_item (sdb c') cOAuth2AuthzRequest "auth_request" st = Ok rq /\ dget "state" rq = Some (VStr st)) /\
  exists ep, dget "authorization_endpoint" (provider_info c) = Some (VStr ep) /\ u_base (urlsplit u) = u_base (urlsplit ep) /\
    (u_query (urlsplit ep) = "" -> query_has u "state" st /\
       forall rq ru, get_item (sdb c') cAuthzRequest "auth_request" st = Ok rq -> dget "redirect_uri" rq = Some (VStr ru) ->
         query_has u "redirect_uri" ru).
Proof.
  intros W cl reqs beh c u st c' K PC NS HH H.
  destruct (oauth_init_spec rnd32 _ _ _ _ _ _ _ _ rnd32_family K PC NS HH H)
    as (-> & args & req & ep & A1 & A2 & A3 & A4 & A5 & A6 & A7 & A8 & A9 & A10 & A11 & A12 & A13 & A14 & A15).
  assert (Ne : e_state W <> "") by (destruct rnd32_family as [X _]; now apply X).
  split; [reflexivity|]. split; [exact A8|]. split; [exact A7|]. split; [intros k K1 K2; unfold get_state; now rewrite A11|]. split.
  - destruct (msg_new_total cOAuth2AuthzRequest (msg_to_dict cOAuth2AuthzRequest req) eq_refl) as [rq R]. exists rq. rewrite A6. split; [exact R|].
    apply (stored_param _ _ _ _ _ _ A4 R); auto.
  - exists ep. split; [exact A2|]. split; [exact A3|]. intros Q. destruct (A15 Q) as (X & _). split; [now apply X|].
    intros rq ru R1 R2. rewrite A6 in R1. assert (ND : NoDup (dkeys (msg_to_dict cOAuth2AuthzRequest req))) by (rewrite ser_keys; assumption).
    rewrite (msg_new_get _ _ _ ND R1), ser_get in R2.
    destruct (dget "redirect_uri" req) as [v|] eqn:E; [|discriminate].
    cbn in R2. destruct (skipped v) eqn:Ev; [discriminate|]. injection R2 as ->. apply X; [assumption|].
    intros ->. discriminate.
Qed.
Print Assumptions C62_request_begins_a_session.

(** the scopes asked for are the chosen ones: nothing is added to them *)
Theorem C62_scope_left_alone : forall W cl reqs beh c u st c' l ws ep, rnd32 (e_state W) ->
  plain_conf (conf_of cl "authorization") -> no_state beh -> (forall m v, e_hash W m v <> "") ->
  uniq reqs -> config_uniq c -> chosen c reqs "scope" (dget "scope" (behaviour c)) = Some (VList l) ->
  all_strs l = Some ws -> join " " ws <> "" ->
  dget "authorization_endpoint" (provider_info c) = Some (VStr ep) -> u_query (urlsplit ep) = "" ->
  oauth_init W cl reqs beh c = (Ok (u, st), c') -> query_has u "scope" (join " " ws).
Proof.
  intros W cl reqs beh c u st c' l ws ep K PC NS HH U CU CH WS Ne EP Q H.
  destruct (oauth_init_spec rnd32 _ _ _ _ _ _ _ _ rnd32_family K PC NS HH H)
    as (-> & args & req & ep' & A1 & A2 & A3 & A4 & A5 & A6 & A7 & A8 & A9 & A10 & A11 & A12 & A13 & A14 & A15).
  rewrite EP in A2. injection A2 as <-. destruct (A15 Q) as (_ & X & _).
  pose proof (chosen_args _ _ _ _ "scope" _ A1 U CU (or_intror (conj eq_refl eq_refl))) as S. rewrite CH in S.
  assert (SK : skipped (VList l) = false).
  { destruct l as [|v [|w l]].
    - injection WS as <-. now destruct Ne.
    - destruct v as [| | |[|a s]| |]; try reflexivity. injection WS as <-. now destruct Ne.
    - destruct v as [| | |[|a s]| |]; reflexivity. }
  assert (NI : ~ In "scope" ["state"; "redirect_uri"; "code_challenge"; "code_challenge_method"]) by (cbn; intuition discriminate).
  pose proof (A9 "scope" (VList l) NI S SK) as R. apply (X "scope" l ws); auto. cbn. auto.
Qed.
Print Assumptions C62_scope_left_alone.

(** with PKCE: the challenge that is sent *)
Theorem C62_challenge_matches_verifier : forall W cl reqs beh c u k c' n m ep, rnd32 (e_state W) ->
  plain_conf (conf_of cl "authorization") -> no_state beh -> (forall m v, e_hash W m v <> "") ->
  cl_pkce cl = true -> pkce_setting c n m ->
  dget "authorization_endpoint" (provider_info c) = Some (VStr ep) -> u_query (urlsplit ep) = "" ->
  oauth_init W cl reqs beh c = (Ok (u, k), c') ->
  let v := unreserved (e_rand W) n in
  In m ["S256"; "S384"; "S512"] /\ query_has u "code_challenge" (b64e (e_hash W m v)) /\ query_has u "code_challenge_method" m.
Proof.
  intros W cl reqs beh c u k c' n m ep K PC NS HH Hp PS EP Q H v.
  destruct (oauth_init_spec rnd32 _ _ _ _ _ _ _ _ rnd32_family K PC NS HH H)
    as (-> & args & req & ep' & A1 & A2 & A3 & A4 & A5 & A6 & A7 & A8 & A9 & A10 & A11 & A12 & A13 & A14 & A15).
  rewrite EP in A2. injection A2 as <-. destruct (A15 Q) as (X & _ & _).
  destruct (A14 Hp) as (n' & m' & v' & D1 & D2 & D3 & D4 & D5 & D6).
  assert (EQ : n' = n /\ m' = m).
  { destruct D1 as (cf & F1 & F2 & F3), PS as (cf' & G1 & G2 & G3). rewrite F1 in G1. injection G1 as <-.
    split.
    - destruct (dget "code_challenge_length" cf) as [x|]; [|congruence]. destruct F2 as (z & -> & ->), G2 as (z' & Z & ->). congruence.
    - destruct (dget "code_challenge_method" cf); congruence. }
  destruct EQ as [-> ->]. subst v'. split; [exact D3|]. split.
  - apply X; [assumption|]. now apply b64e_nonempty.
  - apply X; [assumption|]. cbn in D3. intuition (subst; discriminate).
Qed.
Print Assumptions C62_challenge_matches_verifier.

(** ** the authorization response *)
(** accepted only for a session of this issuer, and stored there; nothing else happens *)
Theorem C62_response_is_checked : forall W cl iss response c r c',
  oauth_finalize_auth W cl iss response c = (r, c') ->
  match r with
  | Err _ => c' = c
  | Ok m =>
      if is_error_message m then c' = c
      else exists st, dget "state" m = Some (VStr st) /\ get_iss (sdb c) st = Ok (VStr iss) /\
        (forall cc, get_item (sdb c') cc "auth_response" st = msg_new cc (msg_to_dict cOAuth2AuthzResponse m)) /\
        (forall cc t, t <> "auth_response" -> get_item (sdb c') cc t st = get_item (sdb c) cc t st) /\
        (forall k, k <> st -> get_state (sdb c') k = get_state (sdb c) k)
  end.
Proof.
  intros W cl iss response c r c' H. pose proof (oauth_finalize_auth_spec _ _ _ _ _ _ _ H) as F. destruct r as [m|]; [|exact F].
  destruct F as [[-> ->]|[-> (s & F1 & F2 & F3 & F4 & F5 & F6 & F7 & _)]]; [reflexivity|]. exists s. repeat split; auto.
  intros k Hk. unfold get_state. now rewrite F7.
Qed.
Print Assumptions C62_response_is_checked.
(** whatever was called before: the session was begun by an authorization request *)
Theorem C62_accepted_was_begun : forall p cl os c W iss response m c1,
  plain_conf (conf_of cl "authorization") -> Forall ocall_ok os -> sdb c = [] ->
  oauth_finalize_auth W cl iss response (run_ocalls p cl os c) = (Ok m, c1) -> is_error_message m = false ->
  iss = issuer c /\ exists W0 reqs beh, In (OInit W0 reqs beh) os /\ dget "state" m = Some (VStr (e_state W0)).
Proof.
  intros p cl os c W iss response m c1 PC OK E H NE. pose proof (oauth_finalize_auth_spec _ _ _ _ _ _ _ H) as F. cbn in F.
  destruct F as [[F _]|[_ (s & F1 & F2 & _)]]; [congruence|].
  destruct (osession_provenance p cl os c s (VStr iss) PC OK E F2) as (I1 & W0 & reqs & beh & I2 & I3).
  split; [congruence|]. exists W0, reqs, beh. split; [exact I2|]. now rewrite I3.
Qed.
Print Assumptions C62_accepted_was_begun.

(** ** the token request *)
(** the code of the session's response is redeemed with the redirect URI and, with PKCE,
    the verifier of the session's request, whatever other calls were made in between *)
Theorem C62_code_redeemed_for_its_session : forall p cl os0 os1 c0 W0 W reqs beh u k c1 code ru ar ep,
  plain_conf (conf_of cl "authorization") -> sdb c0 = [] -> Forall ocall_ok os0 -> Forall ocall_ok os1 ->
  rnd32 (e_state W0) -> no_state beh -> (forall m v, e_hash W0 m v <> "") ->
  oauth_init W0 cl reqs beh (run_ocalls p cl os0 c0) = (Ok (u, k), c1) ->
  (forall o, In o os1 -> oleaves k o) ->
  let c := run_ocalls p cl os1 c1 in
  (exists rq, get_item (sdb c1) cAuthzRequest "auth_request" k = Ok rq /\ dget "redirect_uri" rq = Some (VStr ru)) -> ru <> "" ->
  get_item (sdb c) cAuthzResponse "auth_response" k = Ok ar -> dget "code" ar = Some (VStr code) -> code <> "" ->
  dget "token_endpoint" (provider_info c) = Some (VStr ep) ->
  only_sends (fun http => oauth_tokens p (with_http W http) cl k) c
    (token_wire k code ru ep (fun txt => cl_pkce cl = true -> forall n m, pkce_setting c0 n m -> 0 < n ->
        form_has txt "code_verifier" (unreserved (e_rand W0) n))).
Proof. exact otoken_request_of_session. Qed.
Print Assumptions C62_code_redeemed_for_its_session.
(** the answer is stored in the session with the moment the token expires; without an
    accepted answer nothing is stored *)
Theorem C62_token_answer_is_stored : forall p W cl st c m c', oauth_tokens p W cl st c = (Ok (RMsg m), c') ->
  (forall cc, get_item (sdb c') cc "token_response" st = msg_new cc (msg_to_dict (token_class p) m)) /\
  (forall v, dget "expires_in" m = Some v -> exists n, to_int v = Ok n /\ dget "__expires_at" m = Some (VInt (e_now W + n))) /\
  (exists m0 v, e_vrf W "accesstoken" c m0 = Ok v /\ forall q, q <> "__expires_at" -> q <> "status_code" -> dget q m = dget q v) /\
  (forall k, k <> st -> get_state (sdb c') k = get_state (sdb c) k).
Proof.
  intros p W cl st c m c' H. destruct (otoken_accepted _ _ _ _ _ _ _ H) as (A1 & A2 & A3 & _ & A4). repeat split; auto.
  intros k Hk. unfold get_state. now rewrite A4.
Qed.
Print Assumptions C62_token_answer_is_stored.
Theorem C62_rejected_token_answer_stores_nothing : forall p W cl st c r c',
  (forall m0 v, e_vrf W "accesstoken" c m0 <> Ok v) ->
  oauth_tokens p W cl st c = (r, c') -> c' = c /\ forall m, r <> Ok (RMsg m).
Proof.
  intros p W cl st c r c' NV H. destruct (oauth_tokens_changes _ _ _ _ _ _ _ H) as [G|(raw & v & m0 & V1 & _)]; [exact G|].
  now apply NV in V1.
Qed.
Print Assumptions C62_rejected_token_answer_stores_nothing.

(** a token answer whose content type does not say what it is, such as plain text, is read as
    a form when it comes from GitHub, and as JSON otherwise *)
Theorem C62_unlabelled_token_answer : forall p W cl jwt_of h ct u m b hs st c, h_status h = 200%Z -> h_ctype h = Some ct ->
  ct <> "" -> (forall t, In t ["application/json"; "application/jrd+json"; "application/jwt"; "application/jose"; "application/x-www-form-urlencoded"] -> starts_with t ct = false) ->
  get_response (fun _ _ _ _ => Ok h) jwt_of (oauth_token_svc p W cl) u m b "" hs st c =
  (msg <- parse_response jwt_of (oauth_token_svc p W cl) (h_text h) (match p with GitHub => "urlencoded" | _ => "json" end) st ;; ret (RMsg msg)) c.
Proof.
  intros p W cl jwt_of h ct u m b hs st c S C N H. unfold get_response. rewrite S. cbn [Z.leb Z.ltb Z.compare andb]. 
  assert (R : s_resp_type (oauth_token_svc p W cl) = match p with GitHub => "urlencoded" | _ => "json" end).
  { unfold oauth_token_svc. destruct (cl_pkce cl), p; reflexivity. }
  rewrite R. assert (D : get_deserialization_method h = "").
  { unfold get_deserialization_method. rewrite C. destruct ct as [|a r] eqn:E; [easy|]. rewrite <- E in *. clear E.
    rewrite (H "application/json"), (H "application/jrd+json"), (H "application/jwt"), (H "application/jose") by (cbn; tauto). cbn [orb]. pose proof (H URL_ENCODED) as X. rewrite X by (unfold URL_ENCODED; cbn; tauto). reflexivity. }
  unfold parse_request_response. rewrite S, D. destruct p; reflexivity.
Qed.
Print Assumptions C62_unlabelled_token_answer.

(** ** the user info request *)
(** the token is sent in the header, ... *)
Theorem C62_bearer_token : forall p W cl st tok c ep, p <> GitHub -> dget "pre_construct" (conf_of cl "userinfo") = None -> tok <> "" ->
  dget "userinfo_endpoint" (provider_info c) = Some (VStr ep) ->
  only_sends (fun http => oauth_user_info p (with_http W http) cl st tok) c (userinfo_wire tok ep).
Proof.
  intros p W cl st tok c ep NG PC Ne EP. apply ouser_sends; [exact Ne|]. intros i c' G.
  destruct (obearer_grp _ _ _ _ _ _ _ _ NG PC G) as (_ & _ & G1 & G2 & G3 & G4). split; [congruence|]. auto.
Qed.
Print Assumptions C62_bearer_token.
(** ... but for GitHub in the URL, with no header *)
Theorem C62_github_token_in_url : forall W cl st tok c ep, dget "pre_construct" (conf_of cl "userinfo") = None -> tok <> "" ->
  dget "userinfo_endpoint" (provider_info c) = Some (VStr ep) -> u_query (urlsplit ep) = "" ->
  only_sends (fun http => oauth_user_info GitHub (with_http W http) cl st tok) c (token_in_url tok ep).
Proof.
  intros W cl st tok c ep PC Ne EP Q. apply ouser_sends; [exact Ne|]. intros i c' G. exact (ogithub_grp _ _ _ _ _ _ _ _ PC Ne EP Q G).
Qed.
Print Assumptions C62_github_token_in_url.
(** what is stored is what the provider answered *)
Theorem C62_user_info_is_stored : forall p W cl st tok c m c', closed rnd32 (sdb c) ->
  oauth_user_info p W cl st tok c = (Ok (RMsg m), c') ->
  (forall cc, get_item (sdb c') cc "user_info" st = msg_new cc (msg_to_dict (user_class p) m)) /\
  (forall k, k <> st -> get_state (sdb c') k = get_state (sdb c) k) /\
  exists m0 v, is_error_message m0 = false /\ e_vrf W "userinfo" c m0 = Ok v /\ (dget "_claim_sources" v = None -> m = v).
Proof.
  intros p W cl st tok c m c' CL H. destruct (oauth_user_info_changes _ _ _ _ _ _ _ _ CL H) as [[_ X]|(hdr & m0 & v & m1 & U1 & U2 & U3 & U4)]; [now destruct (X m)|].
  destruct U4 as [U4|[e U4]]; [|discriminate]. injection U4 as ->. apply ouser_post_effect in U3. destruct U3 as (_ & A1 & A2 & A3).
  split; [exact A1|]. split; [intros k Hk; unfold get_state; now rewrite A2|]. eauto 6.
Qed.
Print Assumptions C62_user_info_is_stored.

(** ** the whole login *)
(** a finished login belongs to the session named in the response; its subject leads back
    to that session; whether or not the login is finished no other session is touched *)
Theorem C62_login_result : forall p W cl iss resp collect c info s tok idt ss c', closed rnd32 (sdb c) ->
  oauth_finalize p W cl iss resp collect c = (Ok (FOk info s tok idt ss), c') ->
  exists k, s = VStr k /\ get_iss (sdb c) k = Ok (VStr iss) /\
    match idt with
    | VDict (kv :: r) => exists sub, dget "sub" (kv :: r) = Some (VStr sub) /\ get_state_by_sub (sdb c') sub = Ok k
    | _ => exists sub, dget "sub" info = Some (VStr sub) /\ get_state_by_sub (sdb c') sub = Ok k
    end.
Proof.
  intros p W cl iss resp collect c info s tok idt ss c' CL H.
  destruct (oauth_finalize_cases _ _ _ _ _ _ _ _ _ H) as [[_ X]|(ar & c1 & st & E1 & E2 & E3 & E4)]; [now destruct (X info s tok idt ss)|].
  pose proof (oauth_finalize_auth_spec _ _ _ _ _ _ _ E1) as F. cbn in F. destruct F as [[F _]|[_ (s0 & F1 & F2 & _)]]; [congruence|].
  rewrite E3 in F1. injection F1 as <-.
  assert (Hk : rnd32 st) by (eapply closed_iss; [exact rnd32_no_dict|exact CL|exact F2]).
  assert (Ne : st <> "") by (destruct rnd32_family as [X _]; now apply X).
  destruct (oafter_ok _ _ _ _ _ _ _ _ _ _ _ _ _ Ne E4) as (-> & t & c2 & c3 & _ & _ & _ & _ & T5). exists st. auto.
Qed.
Print Assumptions C62_login_result.
Theorem C62_other_sessions_untouched : forall p W cl iss resp collect c r c', closed rnd32 (sdb c) ->
  oauth_finalize p W cl iss resp collect c = (r, c') ->
  c' = c \/ exists st, get_iss (sdb c) st = Ok (VStr iss) /\
     (forall i s a d x, r = Ok (FOk i s a d x) -> s = VStr st) /\
     forall k, rnd32 k -> k <> st -> get_state (sdb c') k = get_state (sdb c) k.
Proof.
  intros p W cl iss resp collect c r c' CL H. destruct (oauth_finalize_frame _ _ _ _ _ _ _ _ _ CL H) as [_ [->|(st & _ & A1 & A2 & A3)]]; [auto|]. right. eauto.
Qed.
Print Assumptions C62_other_sessions_untouched.
(** a provider that gives no ID Token and no 'sub': no login is ever finished *)
Theorem C62_no_subject_no_login : forall p cl os c W iss resp collect info s tok idt ss c',
  plain_conf (conf_of cl "authorization") -> Forall ocall_ok os -> sdb c = [] -> nameless W ->
  oauth_finalize p W cl iss resp collect (run_ocalls p cl os c) <> (Ok (FOk info s tok idt ss), c').
Proof.
  intros p cl os c W iss resp collect info s tok idt ss c' PC OK E N. apply nameless_never; [exact N|].
  apply oclosed_reach; auto. rewrite E. apply closed_nil.
Qed.
Print Assumptions C62_no_subject_no_login.

(** ** a login at each of the providers *)
Definition ox_ctx : ctx := set_behaviour [("response_types", strs ["code"]); ("scope", strs ["user"; "public_repo"])] ex_ctx.
Definition ox_token : dict val := [("access_token", VStr "AT1"); ("token_type", VStr "bearer"); ("expires_in", VInt 3600)].
Definition ox_http (user : dict val) : http_client := fun u m b h =>
  Ok (mkresp 200 (Some "application/json")
        (if u =?s "https://op.example/token" then json_dumps (VDict ox_token) else json_dumps (VDict user))).
Definition ox_vrf (n : string) (c : ctx) (m : msg) : res msg := Ok m.
Definition ox_env (user : dict val) : env :=
  mkenv 1000 ex_nonce ex_state "x2" "n2" "LsLsLsLsLsLsLsLsLsLsLsLsLsLsLsLs" (ox_http user) (fun _ _ => Err OtherError) ox_vrf
    (fun _ => Ok None) (fun _ _ _ _ => Ok "reqobj") ex_authn (fun n => 7 * n) (fun m v => (m ++ "digest")%string).
Definition ox_client : client := mkclient ox_ctx ["authorization"; "accesstoken"; "userinfo"] [] true.
Definition ox_user : dict val := [("sub", VStr "u1"); ("email", VStr "u1@example.org")].
Definition ox_c1 : ctx := snd (oauth_init (ox_env ox_user) ox_client [] None ox_ctx).
Definition ox_c2 : ctx := snd (oauth_finalize_auth (ox_env ox_user) ox_client "https://op.example" ex_resp ox_c1).
Definition ox_c3 : ctx := snd (oauth_tokens PlainOAuth2 (ox_env ox_user) ox_client ex_state ox_c2).

Lemma ox_ok : ocall_ok (OInit (ox_env ox_user) [] None).
Proof. repeat split. Qed.
(** the hypotheses are met *)
Example ex_C62_request : rnd32 (e_state (ox_env ox_user)) /\ plain_conf (conf_of ox_client "authorization") /\ no_state (Some [("x", VNone)]) /\
  (forall m v, e_hash (ox_env ox_user) m v <> "") /\ uniq [] /\ config_uniq ox_ctx /\
  chosen ox_ctx [] "scope" (dget "scope" (behaviour ox_ctx)) = Some (strs ["user"; "public_repo"]) /\ pkce_setting ox_ctx 64 "S256" /\
  exists u, fst (oauth_init (ox_env ox_user) ox_client [] None ox_ctx) = Ok (u, ex_state) /\ query_has u "state" ex_state /\
    query_has u "scope" "user public_repo" /\ query_has u "redirect_uri" "https://rp.example/cb".
Proof.
  split; [split; reflexivity|]. split; [split; reflexivity|]. split; [cbn; intuition discriminate|].
  split; [intros m v; destruct m; discriminate|]. split; [constructor|]. split; [intros d; cbn; discriminate|].
  split; [reflexivity|]. split; [eexists; split; [reflexivity|]; split; [|reflexivity]; eexists; split; reflexivity|].
  eexists. vm_compute. repeat split; reflexivity.
Qed.
Example ex_C62_response : exists m, fst (oauth_finalize_auth (ox_env ox_user) ox_client "https://op.example" ex_resp
    (run_ocalls PlainOAuth2 ox_client [OInit (ox_env ox_user) [] None] ox_ctx)) = Ok m /\ is_error_message m = false.
Proof. eexists. vm_compute. split; reflexivity. Qed.
Example ex_C62_foreign_issuer : fst (oauth_finalize_auth (ox_env ox_user) ox_client "https://other.example" ex_resp ox_c1) = Err ValueError.
Proof. vm_compute. reflexivity. Qed.
Definition ox_between : list ocall :=
  [OFinalizeAuth (ox_env ox_user) "https://op.example" ex_resp; OTokens (ox_env ox_user) ex_state].
Example ex_C62_code : Forall ocall_ok ox_between /\ (forall o, In o ox_between -> oleaves ex_state o) /\
  let c := run_ocalls PlainOAuth2 ox_client ox_between ox_c1 in
  (exists rq, get_item (sdb ox_c1) cAuthzRequest "auth_request" ex_state = Ok rq /\ dget "redirect_uri" rq = Some (VStr "https://rp.example/cb")) /\
  (exists ar, get_item (sdb c) cAuthzResponse "auth_response" ex_state = Ok ar /\ dget "code" ar = Some (VStr "c0de")) /\
  exists r, fst (oauth_tokens PlainOAuth2 (ox_env ox_user) ox_client ex_state c) = Ok r.
Proof.
  split; [repeat constructor|]. split; [intros o [<-|[<-|[]]]; exact I|]. split; [|split].
  - apply (ok_with _ _ _ (get_if "redirect_uri" (VStr "https://rp.example/cb"))). vm_compute. reflexivity.
  - apply (ok_with _ _ _ (get_if "code" (VStr "c0de"))). vm_compute. reflexivity.
  - apply ok_if. vm_compute. reflexivity.
Qed.
Example ex_C62_tokens : exists m, fst (oauth_tokens PlainOAuth2 (ox_env ox_user) ox_client ex_state ox_c2) = Ok (RMsg m) /\ dget "__expires_at" m = Some (VInt 4600).
Proof. eexists. vm_compute. split; reflexivity. Qed.
Example ex_C62_user : exists m, fst (oauth_user_info LinkedIn (ox_env ox_user) ox_client ex_state "AT1" ox_c3) = Ok (RMsg m) /\ dget "sub" m = Some (VStr "u1").
Proof. eexists. vm_compute. split; reflexivity. Qed.
Example ex_C62_login : exists info c', oauth_finalize PlainOAuth2 (ox_env ox_user) ox_client "https://op.example" ex_resp false ox_c1 =
  (Ok (FOk info (VStr ex_state) (VStr "AT1") VNone (VStr "")), c') /\ dget "sub" info = Some (VStr "u1") /\ get_state_by_sub (sdb c') "u1" = Ok ex_state.
Proof. do 2 eexists. vm_compute. repeat split; reflexivity. Qed.

(** ** what does not hold *)
(** GitHub and LinkedIn: the user's data are fetched and stored, but their answers name the
    user 'id', not 'sub', and finalize raises *)
Definition gh_vrf (n : string) (c : ctx) (m : msg) : res msg :=
  if dhas (verified "id_token") m || dhas "sub" m || dhas "_claim_sources" m then Err OtherError else Ok m.
Definition gh_user : dict val := [("login", VStr "octocat"); ("id", VInt 583231); ("name", VStr "The Octocat")].
Definition gh_env : env :=
  mkenv 1000 ex_nonce ex_state "x2" "n2" "LsLsLsLsLsLsLsLsLsLsLsLsLsLsLsLs"
    (fun u m b h => Ok (if u =?s "https://op.example/token"
       then mkresp 200 (Some "application/x-www-form-urlencoded") "access_token=AT1&token_type=bearer&scope=user"
       else mkresp 200 (Some "application/json") (json_dumps (VDict gh_user))))
    (fun _ _ => Err OtherError) gh_vrf
    (fun _ => Ok None) (fun _ _ _ _ => Ok "reqobj") ex_authn (fun n => 7 * n) (fun m v => (m ++ "digest")%string).
Lemma gh_nameless : nameless gh_env.
Proof.
  assert (G : forall n c m v, gh_vrf n c m = Ok v -> dget (verified "id_token") v = None /\ dget "sub" v = None /\ dget "_claim_sources" v = None).
  { intros n c m v H. unfold gh_vrf, dhas in H. destruct (dget (verified "id_token") m) eqn:E1; [discriminate|].
    destruct (dget "sub" m) eqn:E2; [discriminate|]. destruct (dget "_claim_sources" m) eqn:E3; [discriminate|]. injection H as <-. auto. }
  split; [|split]; intros c m v H; apply G in H; tauto.
Qed.
Definition gh_c1 : ctx := snd (oauth_init gh_env ox_client [] None ox_ctx).
Theorem C62_github_login_refuted : 
  let out := oauth_finalize GitHub gh_env ox_client "https://op.example" ex_resp false gh_c1 in
  fst out = Err (KeyError "sub") /\
  (exists t, get_item (sdb (snd out)) cGitHubToken "token_response" ex_state = Ok t /\ dget "access_token" t = Some (VStr "AT1")) /\
  (exists i, get_item (sdb (snd out)) cMessage "user_info" ex_state = Ok i /\ dget "login" i = Some (VStr "octocat")).
Proof.
  cbv zeta. split; [vm_compute; reflexivity|]. split.
  - apply (ok_with _ _ _ (get_if "access_token" (VStr "AT1"))). vm_compute. reflexivity.
  - apply (ok_with _ _ _ (get_if "login" (VStr "octocat"))). vm_compute. reflexivity.
Qed.
Print Assumptions C62_github_login_refuted.

(** the verified ID Token is looked for in the token answer under an ordinary parameter
    name: a verification that checks no ID Tokens lets the endpoint write it in plain *)
Definition fx_http : http_client := fun u m b h =>
  Ok (mkresp 200 (Some "application/json")
        (json_dumps (VDict [("access_token", VStr "AT1"); ("token_type", VStr "bearer");
                            (verified "id_token", VDict [("sub", VStr "victim")])]))).
Definition fx_env : env := with_http (ox_env ox_user) fx_http.
Theorem C62_unsigned_subject_refuted : exists info c',
  (forall n c m, e_vrf fx_env n c m = Ok m) /\
  oauth_finalize PlainOAuth2 fx_env (mkclient ox_ctx ["authorization"; "accesstoken"] [] true) "https://op.example" ex_resp false ox_c1 =
    (Ok (FOk info (VStr ex_state) (VStr "AT1") (VDict [("sub", VStr "victim")]) (VStr "")), c') /\
  get_state_by_sub (sdb c') "victim" = Ok ex_state.
Proof. do 2 eexists. split; [reflexivity|]. vm_compute. split; reflexivity. Qed.
Print Assumptions C62_unsigned_subject_refuted.

(** behaviour arguments that name a state: the request is filed under that session *)
Definition victim_key := "ZZZZZZZZZZZZZZZZZZZZZZZZZZZZZZZZ".
Theorem C62_behaviour_args_state_refuted : exists u c',
  let c := set_db (snd (create_state victim_key "https://op.example" "" (sdb ox_ctx))) ox_ctx in
  oauth_init (ox_env ox_user) ox_client [] (Some [("state", VStr victim_key)]) c = (Ok (u, ex_state), c') /\
  query_has u "state" ex_state /\
  (forall cc m, get_item (sdb c') cc "auth_request" ex_state <> Ok m) /\
  exists m, get_item (sdb c') cMessage "auth_request" victim_key = Ok m /\ dget "state" m = Some (VStr ex_state).
Proof.
  do 2 eexists. cbv zeta. split; [vm_compute; reflexivity|]. split; [vm_compute; reflexivity|]. split.
  - intros cc m. vm_compute. discriminate.
  - apply (ok_with _ _ _ (get_if "state" (VStr ex_state))). vm_compute. reflexivity.
Qed.
Print Assumptions C62_behaviour_args_state_refuted.
