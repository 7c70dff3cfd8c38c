(** Property theorems C07, C08, C11, C12, C15 - C19, C40, C43 and C44: the session
    functions of the handler.  Proofs are in P_Handler*.v and P_Route.v, the
    specification in S_Token.v, S_Handler.v, S_Flow.v, S_Trace.v and S_Route.v. *)
From Verif Require Import Base BaseP Json Msg M_State S_State M_Ctx M_Codec M_Authz M_ClientAuth M_Service M_Token M_Handler
  S_Token S_Handler S_Flow S_Trace S_Route P_Trace P_Handler P_Handler2 P_Handler3 P_Handler4 P_Route Ex T_Flow.

(** C01 - C04 apply to what applications do: after any history of API calls the session
    store is the result of a history of the store operations of S_State.v on session keys
    of the library's own making *)
Theorem C01_api_histories_are_store_histories : forall cl os c, plain_client cl -> Forall call_ok os -> sdb c = [] ->
  exists ops, Forall (op_ok rnd32) ops /\ sdb (run_calls cl os c) = snd (crun [] ops).
Proof. exact calls_from_empty. Qed.
Print Assumptions C01_api_histories_are_store_histories.

(** ** C07 *)
(** after any history, an accepted authorization response belongs to a session that
    this client began *)
Theorem C07_accepted_response_was_asked_for : forall cl os c vrf now iss response m c',
  plain_client cl -> Forall call_ok os -> sdb c = [] ->
  finalize_auth vrf now iss response (run_calls cl os c) = (Ok m, c') -> dhas "error" m = false ->
  exists W reqs beh, In (CInit W reqs beh) os /\ dget "state" m = Some (VStr (e_state W)).
Proof. exact accepted_was_begun. Qed.
Print Assumptions C07_accepted_response_was_asked_for.

(** ** C08 *)
(** in any handler whatever: a key that leads somewhere leads to an issuer that some
    client recorded for it, and to the client registered under that issuer *)
Theorem C08_route_is_a_recorded_issuer : forall h k i, client_of_session h k = Ok i ->
  (exists cl, dget i h = Some cl) /\ exists j cl, In (j, cl) h /\ get_iss (sdb (cl_ctx cl)) k = Ok (VStr i).
Proof. exact client_of_session_sound. Qed.
Print Assumptions C08_route_is_a_recorded_issuer.
(** from the beginning of a session to any later moment, whatever the other calls on
    any of the clients are: the key leads back to the client that created it *)
Theorem C08_key_routes_back : forall h0 os0 os1 W i reqs beh u k h1,
  fresh_handler h0 -> Forall hcall_ok os0 -> Forall hcall_ok os1 ->
  rnd32 (e_state W) -> (forall m v, e_hash W m v <> "") ->
  on_client i (fun cl => init_authorization W cl reqs beh) (run_hcalls h0 os0) = (Ok (u, k), h1) ->
  (forall o, In o os1 -> hleaves k o) -> begun_only_at k i os0 ->
  state2issuer (run_hcalls h1 os1) k = Ok (Some (VStr i)) /\ client_of_session (run_hcalls h1 os1) k = Ok i.
Proof. exact begun_routes_back. Qed.
Print Assumptions C08_key_routes_back.
(** a key leads to a client only if that client has the session and began it *)
Theorem C08_routed_client_has_the_session : forall h0 os k i,
  fresh_handler h0 -> Forall hcall_ok os -> rnd32 k -> client_of_session (run_hcalls h0 os) k = Ok i ->
  exists cl, dget i (run_hcalls h0 os) = Some cl /\ get_iss (sdb (cl_ctx cl)) k = Ok (VStr i) /\
    exists W reqs beh, In (HInit W i reqs beh) os /\ e_state W = k.
Proof. exact route_sound. Qed.
Print Assumptions C08_routed_client_has_the_session.
Theorem C08_unknown_key : forall h0 os k, fresh_handler h0 -> Forall hcall_ok os -> rnd32 k ->
  (state2issuer (run_hcalls h0 os) k = Ok None <-> forall i, ~ knows (run_hcalls h0 os) i k) /\
  ((forall i, ~ knows (run_hcalls h0 os) i k) -> client_of_session (run_hcalls h0 os) k = Err (KeyError "None")).
Proof. exact route_unknown. Qed.
Print Assumptions C08_unknown_key.

(** ** C11 *)
Theorem C11_token_response_with_foreign_nonce_rejected : forall W cl st c r c',
  (forall m0 v, e_vrf W "accesstoken" c m0 = Ok v -> exists idt, dget (verified "id_token") v = Some (VDict idt) /\
     forall n, dget "nonce" idt = Some (VStr n) -> get_state_by_nonce (sdb c) n <> Ok st) ->
  get_tokens W cl st c = (r, c') -> c' = c /\ forall m, r <> Ok (RMsg m).
Proof. exact token_nonce_rejected. Qed.
Print Assumptions C11_token_response_with_foreign_nonce_rejected.
(** the exceptions: ParameterError for a nonce of another session, ValueError for a
    nonce that is unknown or missing *)
Theorem C11_exceptions : forall now resp key c idt,
  dget (verified "id_token") resp = Some (VDict idt) ->
  (forall n, dget "nonce" idt = Some (VStr n) -> get_state_by_nonce (sdb c) n <> Ok key) ->
  oidc_token_update now resp key c =
  (Err (match dget "nonce" idt with
        | Some (VStr n) => match get_state_by_nonce (sdb c) n with Ok _ => ParameterError | Err _ => ValueError end
        | _ => ValueError
        end), c).
Proof. exact P_Token.token_update_rejects. Qed.
Print Assumptions C11_exceptions.
Theorem C11_accepted_token_response : forall W cl st c m c', rnd32 st -> get_tokens W cl st c = (Ok (RMsg m), c') ->
  (forall cc, get_item (sdb c') cc "token_response" st = msg_new cc (msg_to_dict cTokenResponse m)) /\
  (forall v, dget "expires_in" m = Some v -> exists n, to_int v = Ok n /\ dget "__expires_at" m = Some (VInt (e_now W + n))) /\
  (forall idt, dget (verified "id_token") m = Some (VDict idt) ->
     exists n sub, dget "nonce" idt = Some (VStr n) /\ get_state_by_nonce (sdb c) n = Ok st /\
       dget "sub" idt = Some (VStr sub) /\ get_state_by_sub (sdb c') sub = Ok st) /\
  (forall k, rnd32 k -> k <> st -> get_state (sdb c') k = get_state (sdb c) k).
Proof. exact token_accepted. Qed.
Print Assumptions C11_accepted_token_response.
(** and a nonce that resolves at all was drawn for an authorization request of this client *)
Theorem C11_known_nonces_were_sent : forall cl os c n k, plain_client cl -> Forall call_ok os -> sdb c = [] ->
  get_state_by_nonce (sdb (run_calls cl os c)) n = Ok k -> exists W reqs beh, In (CInit W reqs beh) os /\ e_state W = k.
Proof. exact nonce_provenance. Qed.
Print Assumptions C11_known_nonces_were_sent.

(** ** C12 *)
(** for every response type of the flow table, in any order of words (and repetition) *)
Theorem C12_tokens_come_from_the_prescribed_response : forall W cl resp st c t c' rq rt ws sa si,
  get_item (sdb c) cAuthzRequest "auth_request" st = Ok rq -> dget "response_type" rq = Some (VList rt) ->
  words_are rt ws -> In (ws, (sa, si)) flow_table ->
  get_access_and_id_token W cl resp st false c = (Ok t, c') ->
  exists ans,
    (match sa with Endpoint => exists r, get_tokens W cl st c = (Ok r, c') /\ ans = Some (match r with RMsg m => m | _ => [] end)
                 | _ => c' = c /\ ans = None end) /\
    comes_from sa "access_token" resp ans (t_access t) /\ comes_from si (verified "id_token") resp ans (t_id t).
Proof. exact flow_sources. Qed.
Print Assumptions C12_tokens_come_from_the_prescribed_response.

(** ** C15 *)
Theorem C15_token_never_expired : forall now d k a e, get_valid_access_token now d k = Ok (a, e) ->
  (e = 0%Z /\ exists before t c after, token_kinds = before ++ (t, c) :: after /\ holds_token d k t c a None /\
      forall t' c' a', In (t', c') before -> ~ holds_token d k t' c' a' None) \/
  ((now < e)%Z /\ held d k a (Some (VInt e)) /\ (forall a', ~ held d k a' None) /\
   forall a' v, held d k a' (Some v) -> exists x, v = VInt x /\ ((now < x)%Z -> (x <= e)%Z)).
Proof. exact valid_token_ok. Qed.
Print Assumptions C15_token_never_expired.
Theorem C15_error_means_no_token : forall now d k, (0 <= now)%Z -> get_valid_access_token now d k = Err OidcServiceError ->
  (exists t c, In (t, c) token_kinds /\ get_item d c t k = Err OidcServiceError) \/
  forall a e, held d k a e -> exists x, e = Some (VInt x) /\ (x <= now)%Z.
Proof. exact valid_token_none. Qed.
Print Assumptions C15_error_means_no_token.
Theorem C15_no_other_error : forall now d k e, get_valid_access_token now d k = Err e ->
  (forall t c, In (t, c) token_kinds -> forall e', get_item d c t k = Err e' -> is_key_error e' = true) ->
  (forall a v, held d k a (Some v) -> exists z, v = VInt z) -> e = OidcServiceError.
Proof. exact valid_token_err. Qed.
Print Assumptions C15_no_other_error.

(** ** C16 *)
Theorem C16_active_iff_unexpired : forall now d k b,
  (forall t m, In t session_items -> get_item d cMessage t k = Ok m -> dget (verified (verified "id_token")) m = None) ->
  has_active_authentication now d k = Ok b ->
  b = true <-> exists claims e, newest d k (verified "id_token") session_items = Some (VDict claims) /\
                 dget "exp" claims = Some (VInt e) /\ (now < e)%Z.
Proof. exact active_spec. Qed.
Print Assumptions C16_active_iff_unexpired.

(** ** C17 *)
(** after any history; [v] is the verified answer of the user info endpoint *)
Theorem C17_user_info_subject : forall cl os c0 W st tok r c' idt sub,
  plain_client cl -> sdb c0 = [] -> Forall call_ok os ->
  let c := run_calls cl os c0 in
  session_id_token (sdb c) st = Some (VDict idt) -> dget "sub" idt = Some sub ->
  get_user_info W cl st tok c = (r, c') ->
  (c' = c /\ forall m, r <> Ok (RMsg m)) \/
  exists m0 v m, e_vrf W "userinfo" c m0 = Ok v /\ dget "sub" v = Some sub /\
    (r = Ok (RMsg m) \/ exists e, r = Err e) /\
    (forall cc, get_item (sdb c') cc "user_info" st = msg_new cc (msg_to_dict cMessage m)) /\
    (forall k, k <> st -> dget k (sdb c') = dget k (sdb c)) /\
    (~ In "sub" (claims_from_sources v) -> ~ In "_claim_names" (claims_from_sources v) -> dget "sub" m = Some sub).
Proof. intros cl os c0 W st tok r c' idt sub PC E OK c. apply user_info_sub. now apply closed_reach'. Qed.
Print Assumptions C17_user_info_subject.
Theorem C17_wrong_subject_stores_nothing : forall cl os c0 W st tok r c' idt sub,
  plain_client cl -> sdb c0 = [] -> Forall call_ok os ->
  let c := run_calls cl os c0 in
  session_id_token (sdb c) st = Some (VDict idt) -> dget "sub" idt = Some sub ->
  (forall m0 v, e_vrf W "userinfo" c m0 = Ok v -> dget "sub" v <> Some sub) ->
  get_user_info W cl st tok c = (r, c') -> c' = c /\ forall m, r <> Ok (RMsg m).
Proof. intros cl os c0 W st tok r c' idt sub PC E OK c. apply user_info_wrong_sub. now apply closed_reach'. Qed.
Print Assumptions C17_wrong_subject_stores_nothing.
Theorem C17_wrong_subject_exception : forall agg resp st c idt sub,
  (exists a, multiple_extend_request_args (sdb c) [] st ["id_token"] session_items false = Ok a) ->
  session_id_token (sdb c) st = Some (VDict idt) -> dget "sub" idt = Some sub -> dget "sub" resp <> Some sub ->
  userinfo_post_parse agg resp st c =
  (Err (match dget "sub" resp with Some _ => ValueError | None => KeyError "sub" end), c).
Proof. exact userinfo_wrong_sub. Qed.
Print Assumptions C17_wrong_subject_exception.
(** the claim fails when the answer aggregates 'sub' from a claim source: the check is
    made before the aggregated claims are copied in *)
Definition ex_agg_answer : dict val :=
  [("sub", VStr "u1"); ("_claim_names", VDict [("sub", VStr "src1")]); ("_claim_sources", VDict [("src1", VDict [("JWT", VStr "a.b.c")])])].
Definition ex_agg_env : env :=
  mkenv 1000 ex_nonce ex_state "x2" "n2" "L" (fun u _ _ _ => Ok (mkresp 200 (Some "application/json") (json_dumps (VDict ex_agg_answer))))
    (fun _ _ => Err OtherError) ex_vrf (fun _ => Ok (Some [("sub", VStr "mallory")])) (fun _ _ _ _ => Ok "reqobj") ex_authn (fun n => 7 * n)
    (fun m v => (m ++ "digest")%string).
Theorem C17_aggregated_subject_refuted : exists W cl st c m c' idt,
  session_id_token (sdb c) st = Some (VDict idt) /\ dget "sub" idt = Some (VStr "u1") /\
  get_user_info W cl st "AT1" c = (Ok (RMsg m), c') /\ dget "sub" m = Some (VStr "mallory").
Proof. exists ex_agg_env, ex_client, ex_state, ex_c3. do 3 eexists. vm_compute. repeat split; reflexivity. Qed.
Print Assumptions C17_aggregated_subject_refuted.

(** ** C18 *)
Theorem C18_only_for_verified_logout_token : forall vrf request args c k, backchannel_logout vrf request args c = Ok k ->
  exists req v claims,
    (if request =?s "" then msg_new cBCLogout args else msg_from_urlencoded cBCLogout request) = Ok req /\
    vrf c req = Ok v /\ dget (verified "logout_token") v = Some (VDict claims) /\
    ((exists s, dget "sub" claims = Some (VStr s) /\ s <> "" /\ get_state_by_sub (sdb c) s = Ok k) \/
     (otruthy (dget "sub" claims) = false /\ exists s, dget "sid" claims = Some (VStr s) /\ s <> "" /\ get_state_by_sid (sdb c) s = Ok k)).
Proof. exact backchannel_spec. Qed.
Print Assumptions C18_only_for_verified_logout_token.
Theorem C18_unverified_raises : forall vrf request args c req e,
  (if request =?s "" then msg_new cBCLogout args else msg_from_urlencoded cBCLogout request) = Ok req -> (request = "" -> args <> []) ->
  vrf c req = Err e -> backchannel_logout vrf request args c = Err (if bogus e then MessageException else e).
Proof. exact bogus_ok. Qed.
Print Assumptions C18_unverified_raises.
Theorem C18_subject_before_session_id : forall vrf request args c req v claims,
  (if request =?s "" then msg_new cBCLogout args else msg_from_urlencoded cBCLogout request) = Ok req -> (request = "" -> args <> []) ->
  vrf c req = Ok v -> dget (verified "logout_token") v = Some (VDict claims) ->
  backchannel_logout vrf request args c =
  match dget "sub" claims, dget "sid" claims with
  | Some (VStr (String _ _ as s)), _ => get_state_by_sub (sdb c) s
  | Some v, o => if truthy v then Err OtherError else
                 match o with Some (VStr (String _ _ as s)) => get_state_by_sid (sdb c) s
                            | Some w => if truthy w then Err OtherError else Err MessageException | None => Err MessageException end
  | None, Some (VStr (String _ _ as s)) => get_state_by_sid (sdb c) s
  | None, Some w => if truthy w then Err OtherError else Err MessageException
  | None, None => Err MessageException
  end.
Proof. exact bc_neither. Qed.
Print Assumptions C18_subject_before_session_id.
(** after any history the session is one that a token answer bound the subject or
    session id to; by C03 it is the one bound last *)
Theorem C18_session_of_this_client : forall cl os c vrf request args k, plain_client cl -> Forall call_ok os -> sdb c = [] ->
  backchannel_logout vrf request args (run_calls cl os c) = Ok k ->
  rnd32 k /\ exists o, In o os /\ match o with CFinalize _ _ _ _ => True | CTokens _ st => st = k | _ => False end.
Proof. exact bc_last_bound. Qed.
Print Assumptions C18_session_of_this_client.

(** ** C19 *)
Theorem C19_end_session_request : forall W cl st uri c i c' ep,
  rnd32 st -> dget "pre_construct" (conf_of cl "end_session") = None ->
  dget "end_session_endpoint" (provider_info c) = Some (VStr ep) ->
  logout W cl st uri c = (Ok i, c') ->
  i_method i = "GET" /\ i_body i = None /\ u_base (urlsplit (i_url i)) = u_base (urlsplit ep) /\
  get_state_by_logout_state (sdb c') (e_lstate W) = Ok st /\
  (forall k, rnd32 k -> get_state (sdb c') k = get_state (sdb c) k) /\ c' = set_db (sdb c') c /\
  (u_query (urlsplit ep) = "" ->
    (forall v, session_raw_id_token (sdb c) st = Some (VStr v) -> v <> "" -> query_has (i_url i) "id_token_hint" v) /\
    (e_lstate W <> "" -> query_has (i_url i) "state" (e_lstate W)) /\
    (uri <> "" -> query_has (i_url i) "post_logout_redirect_uri" uri) /\
    (uri = "" -> forall u, u <> "" -> configured_logout_uri c u -> query_has (i_url i) "post_logout_redirect_uri" u)).
Proof.
  intros W cl st uri c i c' ep H1 H2 H3 H4. destruct (logout_request W cl st uri c i c' ep H1 H2 H3 H4) as (A & B & C & D & E & F & G).
  repeat (split; [assumption|]). intros Q. destruct (G Q) as (G1 & G2 & G3 & G4). repeat (split; [assumption|]).
  intros U u Nu Cu. apply G4; [exact U|now apply logout_uri_of|exact Nu].
Qed.
Print Assumptions C19_end_session_request.
Theorem C19_logout_states_were_sent : forall cl os c ls k, plain_client cl -> Forall call_ok os -> sdb c = [] ->
  get_state_by_logout_state (sdb (run_calls cl os c)) ls = Ok k -> exists W uri, In (CLogout W k uri) os.
Proof. exact logout_provenance. Qed.
Print Assumptions C19_logout_states_were_sent.

(** ** C40 *)
Theorem C40_refresh_request : forall cl os c0 W st scope ep rt it,
  plain_client cl -> sdb c0 = [] -> Forall call_ok os -> rnd32 st ->
  dget "pre_construct" (conf_of cl "refresh_token") = None ->
  let c := run_calls cl os c0 in
  get_item (sdb c) cTokenResponse "token_response" st = Ok it -> dget "refresh_token" it = Some (VStr rt) -> rt <> "" ->
  dget (verified "refresh_token") it = None ->
  dget "token_endpoint" (provider_info c) = Some (VStr ep) -> ~ auth_method_is c "bearer_body" ->
  only_sends (fun http => refresh_access_token (with_http W http) cl st scope) c (refresh_wire rt ep).
Proof. exact refresh_of_session. Qed.
Print Assumptions C40_refresh_request.
(** what a refresh stores: the answer replaces the session's token response; a failing
    refresh stores nothing *)
Theorem C40_refresh_result : forall W cl st scope c r c', refresh_access_token W cl st scope c = (r, c') ->
  match r with
  | Err _ => c' = c
  | Ok (RMsg m) => (exists m0 v raw, e_vrf W "refresh_token" c m0 = Ok v /\ (raw = v \/ exists z, raw = dset "status_code" z v) /\
                      stamped (e_now W) raw m) /\
      (forall cc, get_item (sdb c') cc "token_response" st = msg_new cc (msg_to_dict cTokenResponse m)) /\
      (forall k, k <> st -> dget k (sdb c') = dget k (sdb c)) /\ c' = set_db (sdb c') c
  | Ok _ => c' = c
  end.
Proof.
  intros W cl st scope c r c' H. pose proof (refresh_changes _ _ _ _ _ _ _ H) as G. destruct r as [[m|t|h]|e]; try exact G.
  destruct G as ((m0 & v & raw & G1 & G2 & G3) & G4). split; [|exact G4]. exists m0, v, raw. split; [exact G1|]. split; [exact G2|].
  pose proof (P_Token.expires_spec _ _ _ G3) as X. unfold stamped. destruct (dget "expires_in" raw); [|exact X].
  destruct X as (n & X1 & ->). exists n. split; [exact X1|]. intros k. rewrite dget_dset.
  now rewrite String.eqb_sym.
Qed.
Print Assumptions C40_refresh_result.
(** an answer without a new refresh token (RFC 6749 section 6 allows that) loses the old
    one: the next refresh cannot be made *)
Definition ex_norefresh : http_client := fun u m b h =>
  Ok (mkresp 200 (Some "application/json") (json_dumps (VDict [("access_token", VStr "AT2"); ("token_type", VStr "Bearer")]))).
Theorem C40_refresh_token_lost_refuted : exists W cl st c c' m,
  refresh_access_token W cl st "" c = (Ok (RMsg m), c') /\
  (exists it, get_item (sdb c) cTokenResponse "token_response" st = Ok it /\ dget "refresh_token" it = Some (VStr "RT1")) /\
  (exists it, get_item (sdb c') cTokenResponse "token_response" st = Ok it /\ dget "refresh_token" it = None) /\
  exists e, fst (refresh_access_token W cl st "" c') = Err e.
Proof.
  exists (with_http ex_env ex_norefresh), ex_client, ex_state, ex_c3. do 2 eexists. split; [vm_compute; reflexivity|].
  split; [eexists; vm_compute; split; reflexivity|]. split; [eexists; vm_compute; split; reflexivity|]. eexists; vm_compute; reflexivity.
Qed.
Print Assumptions C40_refresh_token_lost_refuted.

(** C21: with the default client authentication of a refresh (bearer_header) the secret
    is in the body: it is gathered from the client's context and nothing removes it *)
Theorem C21_refresh_sends_secret_in_body_refuted : exists W cl c i c' txt,
  get_request_parameters (e_authn W) (refresh_svc W cl) [] "" "" "" [("state", VStr ex_state)] c = (Ok i, c') /\
  dget "Authorization" (i_headers i) = Some "Bearer RT1" /\ i_body i = Some (BText txt) /\ form_has txt "client_secret" "s3cret".
Proof. exists ex_env, ex_client, ex_c3. do 3 eexists. vm_compute. repeat split; reflexivity. Qed.
Print Assumptions C21_refresh_sends_secret_in_body_refuted.

(** ** C43 *)
Theorem C43_clear_session : forall h0 os i k r h', fresh_handler h0 -> Forall hcall_ok os -> rnd32 k -> begun_only_at k i os ->
  knows (run_hcalls h0 os) i k -> h_clear k (run_hcalls h0 os) = (r, h') ->
  let h := run_hcalls h0 os in
  (forall j, ~ knows h' j k) /\ state2issuer h' k = Ok None /\ client_of_session h' k = Err (KeyError "None") /\
  dkeys h' = dkeys h /\ (forall j, j <> i -> dget j h' = dget j h) /\
  (forall cl, dget i h = Some cl -> exists cl', dget i h' = Some cl' /\ cl_ctx cl' = set_db (sdb (cl_ctx cl')) (cl_ctx cl) /\
     forall k', rnd32 k' -> k' <> k -> get_state (sdb (cl_ctx cl')) k' = get_state (sdb (cl_ctx cl)) k').
Proof. exact clear_session. Qed.
Print Assumptions C43_clear_session.
(** logout and close build the request at the session's own client and leave the other
    clients alone; what the request is: C19 *)
Theorem C43_logout_at_the_sessions_client : forall W h k uri i cl r h',
  client_of_session h k = Ok i -> dget i h = Some cl -> h_logout W k uri h = (r, h') ->
  h_close W k i uri h = (r, h') /\ h_close W k "" uri h = (r, h') /\
  exists c', logout W cl k uri (cl_ctx cl) = (r, c') /\ dget i h' = Some (set_ctx c' cl) /\ forall j, j <> i -> dget j h' = dget j h.
Proof.
  intros W h k uri i cl r h' R E H. destruct (logout_route W h k uri i R) as [L1 L2].
  split; [rewrite L2; destruct (i =?s ""); exact H|]. split; [exact H|]. apply (logout_at_client W h); congruence.
Qed.
Print Assumptions C43_logout_at_the_sessions_client.
(** without an end_session service: AttributeError instead of a request *)
Theorem C43_no_end_session_service_raises : forall W cl st uri c, ~ In "end_session" (cl_services cl) ->
  logout W cl st uri c = (Err AttributeError, c).
Proof.
  intros W cl st uri c H. apply logout_needs_service. unfold has_service. destruct (mem_str "end_session" (cl_services cl)) eqn:E; [|reflexivity].
  now apply mem_str_In in E.
Qed.
Print Assumptions C43_no_end_session_service_raises.

(** ** C44 *)
(** an explicit token is what is sent *)
Theorem C44_explicit_token_is_sent : forall W cl st tok c ep,
  dget "pre_construct" (conf_of cl "userinfo") = None -> tok <> "" ->
  dget "userinfo_endpoint" (provider_info c) = Some (VStr ep) ->
  only_sends (fun http => get_user_info (with_http W http) cl st tok) c (userinfo_wire tok ep).
Proof. exact user_info_sends. Qed.
Print Assumptions C44_explicit_token_is_sent.
(** without a token the call never succeeds, whatever the session holds *)
Theorem C44_without_token_always_fails_refuted : forall W cl st c, dget "pre_construct" (conf_of cl "userinfo") = None ->
  exists e, get_user_info W cl st "" c = (Err e, c).
Proof. exact user_info_without_token. Qed.
Print Assumptions C44_without_token_always_fails_refuted.

(** ** The hypotheses are met *)
(** the session of Ex.v as a history of calls *)
Definition ex_calls : list call :=
  [CInit ex_env [] None; CFinalizeAuth ex_env "https://op.example" ex_resp; CTokens ex_env ex_state].
Example ex_calls_ok : Forall call_ok ex_calls /\ run_calls ex_client ex_calls ex_ctx = ex_c3.
Proof. split; [repeat constructor|vm_compute; reflexivity]. Qed.
(** C07, C11, C12 *)
Example ex_C07 : exists m c', finalize_auth (ex_vrf "authorization") 1000 "https://op.example" ex_resp
    (run_calls ex_client [CInit ex_env [] None] ex_ctx) = (Ok m, c') /\ dhas "error" m = false.
Proof. do 2 eexists. vm_compute. repeat split; reflexivity. Qed.
Example ex_C11 : exists m, get_tokens ex_env ex_client ex_state ex_c2 = (Ok (RMsg m), ex_c3) /\
  dget (verified "id_token") m = Some (VDict ex_idt) /\ dget "__expires_at" m = Some (VInt 4600) /\
  get_state_by_sub (sdb ex_c3) "u1" = Ok ex_state /\ get_state_by_nonce (sdb ex_c2) ex_nonce = Ok ex_state.
Proof. eexists. vm_compute. repeat split; reflexivity. Qed.
(** the same answer in a session that did not ask for it *)
Example ex_C11_rejected :
  let c := snd (finalize_auth (ex_vrf "authorization") 1000 "https://op.example" [("code", VStr "other"); ("state", VStr ex_key2)]
     (run_calls ex_client [CInit ex_env [] None; CInit ex_env2 [] None] ex_ctx)) in
  (forall m0 v, e_vrf ex_env "accesstoken" c m0 = Ok v -> dhas "id_token" m0 = true -> exists idt, dget (verified "id_token") v = Some (VDict idt) /\
     forall n, dget "nonce" idt = Some (VStr n) -> get_state_by_nonce (sdb c) n <> Ok ex_key2) /\
  get_tokens ex_env ex_client ex_key2 c = (Err ParameterError, c).
Proof.
  split; [|vm_compute; reflexivity]. intros m0 v H D. exists ex_idt.
  change (Ok (if dhas "id_token" m0 then dset (verified "id_token") (VDict ex_idt) m0 else m0) = Ok v) in H. rewrite D in H. injection H as <-.
  split; [apply dget_dset_eq|]. intros n E. vm_compute in E. injection E as <-. vm_compute. discriminate.
Qed.
Example ex_C12 : exists rq t, get_item (sdb ex_c2) cAuthzRequest "auth_request" ex_state = Ok rq /\
  dget "response_type" rq = Some (VList [VStr "code"]) /\ In (["code"], (Endpoint, Endpoint)) flow_table /\
  get_access_and_id_token ex_env ex_client ex_resp ex_state false ex_c2 = (Ok t, ex_c3) /\
  t_access t = VStr "AT1" /\ t_id t = VDict ex_idt.
Proof. do 2 eexists. split; [vm_compute; reflexivity|]. split; [reflexivity|]. split; [now left|]. vm_compute. repeat split; reflexivity. Qed.
Example ex_C12_words : words_are [VStr "token"; VStr "code"; VStr "id_token"] ["code"; "id_token"; "token"].
Proof.
  split; [intros v H; cbn in H; intuition (subst; eauto)|]. intros w. cbn. split.
  - intros [H|[H|[H|[]]]]; injection H as <-; auto.
  - intros [<-|[<-|[<-|[]]]]; auto.
Qed.
(** C15, C16 *)
Example ex_C15 : get_valid_access_token 2000 (sdb ex_c3) ex_state = Ok (VStr "AT1", 4600%Z) /\
  get_valid_access_token 4600 (sdb ex_c3) ex_state = Err OidcServiceError.
Proof. split; vm_compute; reflexivity. Qed.
Example ex_C16 : has_active_authentication 4999 (sdb ex_c3) ex_state = Ok true /\ has_active_authentication 5000 (sdb ex_c3) ex_state = Ok false.
Proof. split; vm_compute; reflexivity. Qed.
(** C17, C44 *)
Example ex_C17 : session_id_token (sdb ex_c3) ex_state = Some (VDict ex_idt) /\
  exists m c', get_user_info ex_env ex_client ex_state "AT1" ex_c3 = (Ok (RMsg m), c') /\ dget "sub" m = Some (VStr "u1").
Proof. split; [vm_compute; reflexivity|]. do 2 eexists. vm_compute. split; reflexivity. Qed.
Example ex_C17_wrong : get_user_info (with_http ex_env (fun _ _ _ _ => Ok (mkresp 200 (Some "application/json") (json_dumps (VDict [("sub", VStr "u2")])))))
  ex_client ex_state "AT1" ex_c3 = (Err ValueError, ex_c3).
Proof. vm_compute. reflexivity. Qed.
(** C18 *)
Definition ex_logout_vrf (c : ctx) (m : msg) : res msg := Ok (dset (verified "logout_token") (VDict [("sub", VStr "u1"); ("sid", VStr "zz")]) m).
Example ex_C18 : backchannel_logout ex_logout_vrf "logout_token=x.y.z" [] (run_calls ex_client ex_calls ex_ctx) = Ok ex_state.
Proof. vm_compute. reflexivity. Qed.
(** C19 *)
Example ex_C19 : exists i c', logout ex_env ex_client ex_state "https://rp.example/bye" ex_c3 = (Ok i, c') /\
  session_raw_id_token (sdb ex_c3) ex_state = Some (VStr "eyJ.x.y") /\ query_has (i_url i) "id_token_hint" "eyJ.x.y".
Proof. do 2 eexists. vm_compute. repeat split; reflexivity. Qed.
(** C40 *)
Example ex_C40 : (exists it, get_item (sdb ex_c3) cTokenResponse "token_response" ex_state = Ok it /\ dget "refresh_token" it = Some (VStr "RT1") /\
     dget (verified "refresh_token") it = None) /\ ~ auth_method_is ex_c3 "bearer_body" /\
  exists m c', refresh_access_token ex_env ex_client ex_state "" ex_c3 = (Ok (RMsg m), c') /\ dget "refresh_token" m = Some (VStr "RT1").
Proof.
  split; [eexists; vm_compute; repeat split; reflexivity|]. split; [intros (v & H & _); vm_compute in H; discriminate|].
  do 2 eexists. vm_compute. split; reflexivity.
Qed.
(** C08, C43: two clients *)
Definition ex_ctx2 : ctx :=
  mkctx "https://op2.example" "client2" "other" "https://rp.example" "" (VDict []) ["https://rp.example/cb2"] []
    [("response_types", strs ["code"]); ("scope", strs ["openid"])]
    [("issuer", VStr "https://op2.example"); ("authorization_endpoint", VStr "https://op2.example/a")] [] [] [] [] [] [] [].
Definition ex_client2 : client := mkclient ex_ctx2 ["authorization"; "accesstoken"] [] false.
Definition ex_handler : handler := [("https://op.example", ex_client); ("https://op2.example", ex_client2)].
Example ex_fresh : fresh_handler ex_handler.
Proof.
  split; [repeat constructor; cbn; intuition discriminate|]. intros i cl H. cbn in H.
  destruct (String.eqb_spec "https://op.example" i) as [<-|]; [injection H as <-; repeat split; discriminate|].
  destruct (String.eqb_spec "https://op2.example" i) as [<-|]; [injection H as <-; repeat split; discriminate|discriminate].
Qed.
Definition ex_hcalls : list hcall := [HInit ex_env "https://op.example" [] None; HInit ex_env2 "https://op2.example" [] None].
Example ex_C08 : Forall hcall_ok ex_hcalls /\ begun_only_at ex_key2 "https://op2.example" ex_hcalls /\
  knows (run_hcalls ex_handler ex_hcalls) "https://op2.example" ex_key2 /\
  client_of_session (run_hcalls ex_handler ex_hcalls) ex_key2 = Ok "https://op2.example" /\
  client_of_session (run_hcalls ex_handler ex_hcalls) ex_state = Ok "https://op.example" /\
  fst (h_clear ex_key2 (run_hcalls ex_handler ex_hcalls)) = Ok tt.
Proof.
  split; [repeat constructor|]. split.
  - intros W iss reqs beh [H|[H|[]]] E; injection H as <- <- _ _; [vm_compute in E; discriminate|reflexivity].
  - assert (R : client_of_session (run_hcalls ex_handler ex_hcalls) ex_key2 = Ok "https://op2.example") by (vm_compute; reflexivity).
    split.
    + destruct (route_sound ex_handler ex_hcalls ex_key2 _ ex_fresh ltac:(repeat constructor) ltac:(split; reflexivity) R) as (cl & A & B & _).
      exists cl. eexists. split; [exact A|exact B].
    + split; [exact R|]. split; vm_compute; reflexivity.
Qed.
