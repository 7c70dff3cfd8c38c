(** Property theorems C10, C13, C14 and C42: the authorization request and the token
    request of a session.  Statements only; proofs are in P_Flow2.v, the
    specification in S_Token.v, S_Flow.v and S_Trace.v. *)
From Verif Require Import Base BaseP Json Msg M_State S_State M_Ctx M_Codec M_Authz M_ClientAuth M_Service M_Token M_Handler
  S_Token S_Handler S_Flow S_Trace P_Token2 P_Flow2 Ex.

(** C10: whatever the arguments, configuration and earlier sessions.  [n] is the
    caller's nonce, else the configured one, else the generated one. *)
Theorem C10_request_has_state_and_nonce : forall W cl reqs beh c u st c' n,
  rnd32 (e_state W) -> plain_conf (conf_of cl "authorization") -> (forall m v, e_hash W m v <> "") ->
  uniq reqs -> config_uniq c -> chosen c reqs "nonce" (Some (VStr (e_nonce W))) = Some (VStr n) -> n <> "" ->
  init_authorization W cl reqs beh c = (Ok (u, st), c') ->
  st = e_state W /\
  get_state_by_nonce (sdb c') (e_nonce W) = Ok st /\
  (issuer c <> "" -> get_iss (sdb c') st = Ok (VStr (issuer c))) /\
  (exists rq, get_item (sdb c') cAuthzRequest "auth_request" st = Ok rq /\
     dget "state" rq = Some (VStr st) /\ dget "nonce" rq = Some (VStr n)) /\
  (forall ep, dget "authorization_endpoint" (provider_info c) = Some (VStr ep) -> u_query (urlsplit ep) = "" ->
     no_request_object beh -> query_has u "state" st /\ query_has u "nonce" n) /\
  (forall k, rnd32 k -> k <> st -> get_state (sdb c') k = get_state (sdb c) k).
Proof. exact request_state_and_nonce. Qed.
Print Assumptions C10_request_has_state_and_nonce.

(** C10: the nonce that is sent resolves to the session also when the caller or the
    configuration chose it, if the first word of the response type asks for a code or
    an ID Token. *)
Theorem C10_chosen_nonce_is_bound : forall W cl reqs beh c u st c' n l s w ws,
  rnd32 (e_state W) -> plain_conf (conf_of cl "authorization") -> (forall m v, e_hash W m v <> "") ->
  uniq reqs -> config_uniq c -> chosen c reqs "nonce" (Some (VStr (e_nonce W))) = Some (VStr n) -> n <> "" ->
  chosen c reqs "scope" (dget "scope" (behaviour c)) = Some (VList l) ->
  chosen c reqs "response_type" (first_response_type c) = Some (VStr s) ->
  split_on " "%char s = w :: ws -> contains "id_token" w || contains "code" w = true ->
  init_authorization W cl reqs beh c = (Ok (u, st), c') ->
  get_state_by_nonce (sdb c') n = Ok st.
Proof. exact own_nonce_bound. Qed.
Print Assumptions C10_chosen_nonce_is_bound.

(** C13: for every history of calls before and after the authorization request of
    session [k] (that does not begin [k] again or clear it), every HTTP request that
    get_tokens makes for [k] is a POST to the token endpoint with the code of [k]'s
    authorization response, the redirect URI of [k]'s authorization request and state
    [k]. *)
Theorem C13_token_request_of_session : forall cl os0 os1 c0 W0 W reqs beh u k c1 code ru ar ep,
  plain_client cl -> sdb c0 = [] -> Forall call_ok os0 -> Forall call_ok os1 ->
  rnd32 (e_state W0) -> (forall m v, e_hash W0 m v <> "") ->
  init_authorization W0 cl reqs beh (run_calls cl os0 c0) = (Ok (u, k), c1) ->
  (forall o, In o os1 -> leaves k o) ->
  let c := run_calls cl os1 c1 in
  (exists rq, get_item (sdb c1) cAuthzRequest "auth_request" k = Ok rq /\ dget "redirect_uri" rq = Some (VStr ru)) -> ru <> "" ->
  get_item (sdb c) cAuthzResponse "auth_response" k = Ok ar -> dget "code" ar = Some (VStr code) -> code <> "" ->
  dget "token_endpoint" (provider_info c) = Some (VStr ep) ->
  only_sends (fun http => get_tokens (with_http W http) cl k) c (token_wire k code ru ep (fun _ => True)).
Proof. exact token_request_of_session_plain. Qed.
Print Assumptions C13_token_request_of_session.
(** the redirect URI is also the one in the authorization URL *)
Theorem C13_redirect_uri_in_url : forall W cl reqs beh c u k c' ru ep,
  rnd32 (e_state W) -> plain_conf (conf_of cl "authorization") -> (forall m v, e_hash W m v <> "") ->
  no_request_object beh -> dget "authorization_endpoint" (provider_info c) = Some (VStr ep) -> u_query (urlsplit ep) = "" ->
  init_authorization W cl reqs beh c = (Ok (u, k), c') ->
  (exists rq, get_item (sdb c') cAuthzRequest "auth_request" k = Ok rq /\ dget "redirect_uri" rq = Some (VStr ru)) ->
  query_has u "redirect_uri" ru.
Proof. exact redirect_in_url. Qed.
Print Assumptions C13_redirect_uri_in_url.
(** an error answer (2xx or 4xx) raises OidcServiceError and stores nothing; the first
    hypothesis says that the request can be built *)
Theorem C13_error_answer_stores_nothing : forall W cl st c http' r c1 resp,
  get_tokens (with_http W http') cl st c = (Ok r, c1) ->
  json_error resp -> (forall u m b h, e_http W u m b h = Ok resp) ->
  get_tokens W cl st c = (Err OidcServiceError, c).
Proof. exact token_error. Qed.
Print Assumptions C13_error_answer_stores_nothing.

(** C14: with PKCE the token request carries the verifier that was drawn for the
    authorization request of the session, after any history; by
    C14_challenge_matches_verifier its transform is the challenge that was sent. *)
Theorem C14_verifier_of_session : forall cl os0 os1 c0 W0 W reqs beh u k c1 code ru ar ep n m,
  cl_pkce cl = true -> pkce_setting c0 n m -> 0 < n ->
  plain_client cl -> sdb c0 = [] -> Forall call_ok os0 -> Forall call_ok os1 ->
  rnd32 (e_state W0) -> (forall m v, e_hash W0 m v <> "") ->
  init_authorization W0 cl reqs beh (run_calls cl os0 c0) = (Ok (u, k), c1) ->
  (forall o, In o os1 -> leaves k o) ->
  let c := run_calls cl os1 c1 in
  (exists rq, get_item (sdb c1) cAuthzRequest "auth_request" k = Ok rq /\ dget "redirect_uri" rq = Some (VStr ru)) -> ru <> "" ->
  get_item (sdb c) cAuthzResponse "auth_response" k = Ok ar -> dget "code" ar = Some (VStr code) -> code <> "" ->
  dget "token_endpoint" (provider_info c) = Some (VStr ep) ->
  only_sends (fun http => get_tokens (with_http W http) cl k) c
    (token_wire k code ru ep (fun txt => form_has txt "code_verifier" (unreserved (e_rand W0) n))).
Proof. exact verifier_of_session. Qed.
Print Assumptions C14_verifier_of_session.
Theorem C14_challenge_matches_verifier : forall W cl reqs beh c u k c' n m ep,
  rnd32 (e_state W) -> plain_conf (conf_of cl "authorization") ->
  (forall m v, e_hash W m v <> "") -> cl_pkce cl = true -> pkce_setting c n m -> no_request_object beh ->
  dget "authorization_endpoint" (provider_info c) = Some (VStr ep) -> u_query (urlsplit ep) = "" ->
  init_authorization W cl reqs beh c = (Ok (u, k), c') ->
  let v := unreserved (e_rand W) n in
  In m ["S256"; "S384"; "S512"] /\ query_has u "code_challenge" (b64e (e_hash W m v)) /\ query_has u "code_challenge_method" m /\
  String.length v = n /\ all_chars unreserved_char v = true.
Proof. exact challenge_sent. Qed.
Print Assumptions C14_challenge_matches_verifier.

(** what add_code_verifier does to any request: the session is the one the request names,
    else the one the call names; its verifier is added and nothing else changed *)
Theorem C14_verifier_added : forall req kw c k it v,
  dget "state" req = Some (VStr k) \/ dget "state" req = None /\ dget "state" kw = Some (VStr k) ->
  get_item (sdb c) cMessage "pkce" k = Ok it -> dget "code_verifier" it = Some v ->
  exists req', add_code_verifier req kw c = (Ok req', c) /\ dget "code_verifier" req' = Some v /\
    forall p, p <> "code_verifier" -> dget p req' = dget p req.
Proof.
  intros req kw c k it v H I V. unfold add_code_verifier.
  assert (E : match dget "state" req with
             | Some VNone | None => match dget "state" kw with Some v => Ok v | None => Err (KeyError "None") end
             | Some v => Ok v
             end = Ok (VStr k)) by (destruct H as [-> | [-> ->]]; reflexivity).
  rewrite E. cbn [rbind key_arg]. rewrite I. cbn [rbind]. unfold dict_get. rewrite V. cbn [rbind]. eexists. split; [reflexivity|].
  split; [apply dget_dset_eq|]. intros p N. apply dget_dset_neq. congruence.
Qed.
Print Assumptions C14_verifier_added.
Theorem C14_unsupported_method_raises : forall hash unres args post kw c n m,
  pkce_setting c n m -> ~ In m ["S256"; "S384"; "S512"] ->
  add_code_challenge hash unres args post kw c = (Err Unsupported, c).
Proof. exact pkce_unsupported. Qed.
Print Assumptions C14_unsupported_method_raises.
Theorem C14_unsupported_method_no_request : forall W cl reqs beh c n m,
  rnd32 (e_state W) -> plain_conf (conf_of cl "authorization") ->
  (forall m v, e_hash W m v <> "") -> cl_pkce cl = true -> pkce_setting c n m -> ~ In m ["S256"; "S384"; "S512"] ->
  exists e, fst (init_authorization W cl reqs beh c) = Err e.
Proof. exact pkce_unsupported_no_request. Qed.
Print Assumptions C14_unsupported_method_no_request.

(** C42 for requests made by init_authorization with a list of scopes *)
Theorem C42_openid_scope : forall W cl reqs beh c u st c' l,
  rnd32 (e_state W) -> plain_conf (conf_of cl "authorization") -> (forall m v, e_hash W m v <> "") ->
  uniq reqs -> config_uniq c -> chosen c reqs "scope" (dget "scope" (behaviour c)) = Some (VList l) ->
  init_authorization W cl reqs beh c = (Ok (u, st), c') ->
  exists l', In (VStr "openid") l' /\ incl l l' /\ incl l' (VStr "openid" :: l) /\
    (forall ep ws, dget "authorization_endpoint" (provider_info c) = Some (VStr ep) -> u_query (urlsplit ep) = "" ->
       no_request_object beh -> all_strs l' = Some ws -> query_has u "scope" (join " " ws)) /\
    (forall ws, all_strs l' = Some ws -> forallb (fun w => negb (char_in " "%char w)) ws = true ->
       exists rq, get_item (sdb c') cAuthzRequest "auth_request" st = Ok rq /\ dget "scope" rq = Some (VList l')).
Proof. exact request_scope. Qed.
Print Assumptions C42_openid_scope.

(** C42 does not hold for every request.  A scope given as a text is only searched for
    the substring "openid"; an authorization request constructed by the service itself
    for "token id_token" gets no nonce; the scope of the client configuration is used
    as it is. *)
Theorem C42_openid_scope_refuted : exists W cl reqs c u st c',
  init_authorization W cl reqs None c = (Ok (u, st), c') /\
  query_has u "scope" "notopenid".
Proof. exists ex_env, ex_client, [("scope", VStr "notopenid")], ex_ctx. do 3 eexists. vm_compute. split; reflexivity. Qed.
Print Assumptions C42_openid_scope_refuted.
Theorem C42_service_request_refuted : exists W cl args c req c',
  construct (authz_svc W cl) args [] c = (Ok req, c') /\
  dget "response_type" req = Some (strs ["token"; "id_token"]) /\ dget "nonce" req = None /\
  dget "scope" req = Some (strs ["email"]).
Proof.
  exists ex_env, ex_client, [("state", VStr ex_state); ("response_type", VStr "token id_token")],
    (set_behaviour [("scope", strs ["email"])] ex_ctx). do 2 eexists. vm_compute. repeat split; reflexivity.
Qed.
Print Assumptions C42_service_request_refuted.

(** ** The hypotheses are met *)
Lemma ex_hash m v : e_hash ex_env m v <> "".
Proof. cbn. destruct m; discriminate. Qed.
Lemma ex_key : rnd32 (e_state ex_env).
Proof. split; reflexivity. Qed.
Lemma ex_plain : plain_client ex_client.
Proof. repeat split. Qed.
Example ex_C10 : chosen ex_ctx [] "nonce" (Some (VStr (e_nonce ex_env))) = Some (VStr ex_nonce) /\ uniq [] /\ config_uniq ex_ctx /\
  chosen ex_ctx [] "scope" (dget "scope" (behaviour ex_ctx)) = Some (strs ["openid"; "email"]) /\
  chosen ex_ctx [] "response_type" (first_response_type ex_ctx) = Some (VStr "code") /\ pkce_setting ex_ctx 64 "S256" /\
  exists u, fst (init_authorization ex_env ex_client [] None ex_ctx) = Ok (u, ex_state) /\ query_has u "nonce" ex_nonce.
Proof.
  repeat split; try (now constructor).
  - intros d. cbn. discriminate.
  - eexists. split; [reflexivity|]. split; [|reflexivity]. eexists. split; reflexivity.
  - eexists. vm_compute. split; reflexivity.
Qed.
(** a second session and its response in between *)
Definition ex_key2 := "ZZZZZZZZZZZZZZZZZZZZZZZZZZZZZZZZ".
Definition ex_env2 : env :=
  mkenv 1000 "n-two" ex_key2 "x2" "n2" "L2" ex_http (fun _ _ => Err OtherError) ex_vrf
    (fun _ => Ok None) (fun _ _ _ _ => Ok "reqobj") ex_authn (fun n => 11 * n) (fun m v => (m ++ "digest")%string).
Definition ex_between : list call :=
  [CInit ex_env2 [] None; CFinalizeAuth ex_env "https://op.example" ex_resp;
   CFinalizeAuth ex_env "https://op.example" [("code", VStr "other"); ("state", VStr ex_key2)]].
Example ex_C13 :
  Forall call_ok ex_between /\ (forall o, In o ex_between -> leaves ex_state o) /\
  let c1 := snd (init_authorization ex_env ex_client [] None (run_calls ex_client [CInit ex_env2 [] None] ex_ctx)) in
  (exists rq, get_item (sdb c1) cAuthzRequest "auth_request" ex_state = Ok rq /\
     dget "redirect_uri" rq = Some (VStr "https://rp.example/cb")) /\
  (exists ar, get_item (sdb (run_calls ex_client ex_between c1)) cAuthzResponse "auth_response" ex_state = Ok ar /\
     dget "code" ar = Some (VStr "c0de")) /\
  exists r, fst (get_tokens ex_env ex_client ex_state (run_calls ex_client ex_between c1)) = Ok r.
Proof.
  split; [repeat constructor|]. split.
  - cbn. intros o [<-|[<-|[<-|[]]]]; cbn; auto. discriminate.
  - split; [|split].
    + apply (ok_with _ _ _ (get_if "redirect_uri" (VStr "https://rp.example/cb"))). vm_compute. reflexivity.
    + apply (ok_with _ _ _ (get_if "code" (VStr "c0de"))). vm_compute. reflexivity.
    + apply ok_if. vm_compute. reflexivity.
Qed.
(** the token request and an error answer *)
Definition ex_denied : http_resp := mkresp 400 (Some "application/json") (json_dumps (VDict [("error", VStr "invalid_grant")])).
Example ex_C13_error : json_error ex_denied /\
  fst (get_tokens (with_http ex_env (fun _ _ _ _ => Ok ex_denied)) ex_client ex_state ex_c2) = Err OidcServiceError.
Proof.
  split; [|vm_compute; reflexivity]. split; [right; cbn; lia|]. split; [right; cbn; lia|]. split; [reflexivity|].
  exists [("error", VStr "invalid_grant")], [("error", VStr "invalid_grant")].
  split; [vm_compute; reflexivity|]. split; vm_compute; reflexivity.
Qed.
Example ex_C14_added : exists it v, get_item (sdb ex_c2) cMessage "pkce" ex_state = Ok it /\ dget "code_verifier" it = Some v /\
  dget "state" (@nil (string * val)) = None.
Proof. eexists. eexists. split; [vm_compute; reflexivity|]. split; vm_compute; reflexivity. Qed.
