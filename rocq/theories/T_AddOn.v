(** Property theorems C36 (DPoP) and C37 (pushed authorization requests).  Model in
    M_AddOn.v, specification in S_AddOn.v. *)
From Verif Require Import Base BaseP Json JsonP Msg M_State M_Ctx M_Codec M_ClientAuth M_Service M_Token
  S_Service P_Ctx P_Codec P_Service M_AddOn S_AddOn P_AddOn.

(** ** C36: proofs of possession *)
(** every request of a service with DPoP: if the client has a key afterwards the request
    carries a proof made with it for the request's method and the endpoint's URL; it has none
    only when no allowed algorithm is supported *)
Theorem C36_request_has_its_own_proof : forall E A s args m bt au kw c i c',
  s_extra s = [dpop_header E] -> get_request_parameters A s args m bt au kw c = (Ok i, c') ->
  match client_key c' with
  | Some (k, alg) => exists url jws, dget (s_endpoint_name s) (provider_info c') = Some url /\
      dget "dpop" (i_headers i) = Some jws /\
      forall u, url = VStr u -> is_proof E k alg (i_method i) u jws
  | None => forall a, first_common c' a -> a = VStr ""
  end.
Proof.
  intros E A s args m bt au kw c i c' X H. apply grp_inv in H as (req0 & c1 & h & req1 & ep & _ & Hh & _ & Hm & _ & _ & Hb).
  unfold get_headers, bind, asks, ret in Hh. rewrite X in Hh. cbn [run_headers] in Hh. unfold bind, ret in Hh.
  match type of Hh with context [get_authn_header ?a ?b ?c ?d ?e ?f] => destruct (get_authn_header a b c d e f) as [[h0 r0]|e0]; [|discriminate] end.
  cbn [fst snd] in Hh.
  match type of Hh with context [dpop_header E ?a ?b ?c ?d ?e ?f] => destruct (dpop_header E a b c d e f) as [[h2|e2] c2] eqn:D; [|discriminate] end.
  apply pair_equal_spec in Hh as [Hh1 Hh2]. injection Hh1 as -> _. subst c2.
  assert (IH : dget "dpop" (i_headers i) = dget "dpop" h).
  { destruct (_ =?s "POST") in Hb; [destruct Hb as (b & _ & _ & ->)|destruct Hb as [_ ->]; reflexivity].
    now rewrite dget_dset_neq by discriminate. }
  rewrite IH. rewrite <- Hm in D. apply dpop_header_inv in D as (o & Dk & Ho). destruct o as [o|e]; [|discriminate].
  assert (P : forall k alg, o = Some (k, alg) -> exists url jws, dget (s_endpoint_name s) (provider_info c') = Some url /\
      dget "dpop" h = Some jws /\ forall u, url = VStr u -> is_proof E k alg (i_method i) u jws).
  { intros k alg ->. unfold dict_get in Ho. destruct (dget (s_endpoint_name s) (provider_info c')) as [url|]; [|discriminate].
    cbn [rbind] in Ho. destruct (dp_sign _ _ _ _) as [jws|] eqn:Sg in Ho; [|discriminate]. cbn [rbind] in Ho. injection Ho as ->.
    exists url, jws. repeat split; [apply dget_dset_eq|]. intros u ->. exact Sg. }
  destruct (dpop_key_inv _ _ _ _ Dk) as [([k alg] & K & -> & ->)|[(_ & a & _ & _ & -> & -> & _)|(K & -> & -> & N)]].
  - rewrite K. now apply P.
  - now apply P.
  - rewrite K. exact N.
Qed.
Print Assumptions C36_request_has_its_own_proof.
(** without a configured endpoint that is the URL the request is posted to *)
Theorem C36_proof_names_the_url_of_the_request : forall E A s args m bt au kw c i c',
  s_extra s = [dpop_header E] -> s_endpoint s = "" -> dget "endpoint" kw = None ->
  get_request_parameters A s args m bt au kw c = (Ok i, c') -> i_method i = "POST" ->
  dget (s_endpoint_name s) (provider_info c') = Some (VStr (i_url i)).
Proof.
  intros E A s args m bt au kw c i c' X Ep Ke H Hp. apply grp_inv in H as (req0 & c1 & h & req1 & ep & _ & _ & Hep & Hm & _ & Hu & _).
  rewrite Ke in Hep. unfold get_endpoint in Hep. rewrite Ep in Hep. cbn [String.eqb] in Hep. unfold dict_get in Hep.
  destruct (dget (s_endpoint_name s) (provider_info c')); [|discriminate]. injection Hep as ->.
  rewrite <- Hm, Hp in Hu. rewrite http_url_other in Hu by reflexivity. now injection Hu as ->.
Qed.
Print Assumptions C36_proof_names_the_url_of_the_request.
(** the key once created stays the same for the life of the client *)
Theorem C36_key_never_changes : forall c c', dpop_life c c' -> forall ka, client_key c = Some ka -> client_key c' = Some ka.
Proof.
  induction 1 as [|c1 c2 c3 S L IH]; [auto|]. intros ka K. apply IH. destruct S as [E h req ep meth kw c r c' H|c c' H].
  - apply (dpop_header_key _ _ _ _ _ _ _ _ _ H _ K).
  - unfold client_key in *. now rewrite H.
Qed.
Print Assumptions C36_key_never_changes.
(** and it is made for the first allowed algorithm the provider supports *)
Theorem C36_key_choice : forall E h req ep meth kw c r c', dpop_header E h req ep meth kw c = (r, c') ->
  client_key c = None -> forall k alg, client_key c' = Some (k, alg) ->
  exists a, alg = VStr a /\ k = dp_mint E a /\ first_common c alg.
Proof.
  intros E h req ep meth kw c r c' H N k alg K. apply dpop_header_inv in H as (o & D & _). destruct o as [o|e].
  - destruct (dpop_key_inv _ _ _ _ D) as [(ka & X & _)|[(_ & a & F & _ & O & CK & _)|(_ & _ & -> & _)]]; [congruence| |congruence].
    rewrite CK, O in K. injection K as <- <-. eauto.
  - apply dpop_key_err in D. subst. congruence.
Qed.
Print Assumptions C36_key_choice.
(** the receiving side accepts a proof made here and reads the method and URL off it *)
Theorem C36_proof_is_accepted : forall E open k alg meth url jws, is_proof E k alg meth url jws -> alg <> VStr "none" ->
  (forall h p t, dp_sign E k h p = Ok t -> exists ok, open t = Some (mkview h p ok) /\ ok (dp_jwk E k) alg = true) ->
  exists p, verify_header open jws = Ok (Some p) /\ proof_verify p = Ok tt /\
    dget "htm" p = Some (VStr meth) /\ dget "htu" p = Some (VStr url) /\ dget "jwk" p = Some (dp_jwk E k).
Proof.
  intros E open k alg meth url jws S N O. destruct (O _ _ _ S) as (ok & Op & K). eexists. unfold verify_header. rewrite Op.
  cbn [jv_header jv_payload jv_ok dget String.eqb Ascii.eqb Bool.eqb dict_get rbind].
  assert (X : val_eqb alg (VStr "none") = false) by (destruct (val_eqb alg (VStr "none")) eqn:X; [apply val_eqb_eq in X; contradiction|reflexivity]).
  rewrite X, K. split; [reflexivity|].
  unfold proof_verify. cbn [dupdate fold_left dset String.eqb Ascii.eqb Bool.eqb fst snd existsb proof_params dhas dget negb orb].
  rewrite X. change (val_eqb (VStr "dpop+jwt") (VStr "dpop+jwt")) with true. repeat split.
Qed.
Print Assumptions C36_proof_is_accepted.
(** what it accepts is signed with the key in its own header, not with none, and has every
    member *)
Theorem C36_accepted_proof : forall open t p, verify_header open t = Ok (Some p) -> proof_verify p = Ok tt ->
  (exists j k alg, open t = Some j /\ dget "jwk" (jv_header j) = Some k /\ dget "alg" (jv_header j) = Some alg /\
     alg <> VStr "none" /\ jv_ok j k alg = true) /\
  dget "typ" p = Some (VStr "dpop+jwt") /\ dget "alg" p <> Some (VStr "none") /\
  forall k, In k ["typ"; "alg"; "jwk"; "jti"; "htm"; "htu"; "iat"] -> dhas k p = true.
Proof.
  intros open t p H V. split.
  - unfold verify_header in H. destruct (open t) as [j|]; [|discriminate]. destruct (dget "jwk" (jv_header j)) as [k|] eqn:K; [|discriminate].
    unfold dict_get in H. destruct (dget "alg" (jv_header j)) as [alg|] eqn:A; [|discriminate]. cbn [rbind] in H.
    destruct (val_eqb alg (VStr "none")) eqn:N; [discriminate|]. destruct (jv_ok j k alg) eqn:S; [|discriminate].
    exists j, k, alg. repeat split; auto. intros ->. discriminate.
  - unfold proof_verify in V. destruct (existsb (fun k => negb (dhas k p)) proof_params) eqn:X; [discriminate|].
    destruct (dget "typ" p) as [ty|]; [|discriminate]. destruct (dget "alg" p) as [al|]; [|discriminate].
    destruct (val_eqb ty (VStr "dpop+jwt")) eqn:T; [|discriminate]. apply val_eqb_eq in T. subst ty.
    destruct (val_eqb al (VStr "none")) eqn:N; [discriminate|]. repeat split.
    + intros [= ->]. discriminate.
    + intros k I. destruct (dhas k p) eqn:D; [reflexivity|]. exfalso.
      assert (Y : existsb (fun k => negb (dhas k p)) proof_params = true) by (apply existsb_exists; exists k; split; [exact I|now rewrite D]).
      congruence.
Qed.
Print Assumptions C36_accepted_proof.

(** *** findings *)
(** A provider that does not say it supports DPoP: no request is possible at all. *)
Theorem C36_provider_without_dpop_refuted : forall E h req ep meth kw c d,
  dget "dpop" (add_on c) = Some (VDict d) -> dget "key" d = None ->
  dget "dpop_signing_alg_values_supported" (provider_info c) = None ->
  dpop_header E h req ep meth kw c = (Err (KeyError "dpop_signing_alg_values_supported"), c).
Proof. intros E h req ep meth kw c d D K S. unfold dpop_header, dpop_key, dpop_conf. now rewrite D, K, S. Qed.
Print Assumptions C36_provider_without_dpop_refuted.
(** No algorithm in common: the request goes out without a proof. *)
Theorem C36_no_common_algorithm_no_proof_refuted : forall E h req ep meth kw c c' r,
  client_key c = None -> (forall a, In a (allowed_algs c) -> ~ In a (supported_algs c)) ->
  dpop_header E h req ep meth kw c = (Ok r, c') -> r = h.
Proof.
  intros E h req ep meth kw c c' r K N H. apply dpop_header_inv in H as (o & D & R). destruct o as [o|e]; [|discriminate].
  destruct (dpop_key_inv _ _ _ _ D) as [(ka & X & _)|[(_ & a & F & _)|(_ & -> & _)]]; [congruence| |now injection R].
  destruct F as (l & x & E1 & I & _). exfalso. apply (N (VStr a)); [|exact I]. rewrite E1. apply in_or_app. right. now left.
Qed.
Print Assumptions C36_no_common_algorithm_no_proof_refuted.
(** The proof names the provider's published endpoint even when the service has its own. *)
Definition dp0 : dpop_env := mkdpop (fun a => ("key for " ++ a)%string) (fun k => VStr k)
  (fun k h p => Ok (json_dumps (VDict (h ++ p)))) "id" 1600000000.
Definition dp_ctx : ctx :=
  dpop_add_support ["ES256"; "ES512"]
    (set_provider_info [("token_endpoint", VStr "https://op.example/token");
                        ("dpop_signing_alg_values_supported", strs ["RS256"; "ES256"])] empty_ctx).
Definition dp_service (ep : string) : service :=
  mkservice "accesstoken" cMessage false cMessage ep "token_endpoint" "POST" "urlencoded" "json" (fun _ => "") [] [] [] []
    no_gather [dpop_header dp0] (fun _ m => Ok m) pass pass None.
Definition dp_authn : authn_env := {| ae_sgn := fun _ _ _ => ""; ae_own := []; ae_sig_kids := []; ae_jti := ""; ae_now := 0 |}.
Example ex_C36 : exists i c', get_request_parameters dp_authn (dp_service "") [("code", VStr "abc")] "" "" "" [] dp_ctx = (Ok i, c') /\
  client_key dp_ctx = None /\ client_key c' = Some ("key for ES256", VStr "ES256") /\ i_url i = "https://op.example/token" /\
  is_proof dp0 "key for ES256" (VStr "ES256") "POST" "https://op.example/token" (match dget "dpop" (i_headers i) with Some x => x | None => "" end).
Proof. eexists. eexists. split; [vm_compute; reflexivity|]. repeat split. Qed.
Theorem C36_configured_endpoint_refuted :
  exists i c', get_request_parameters dp_authn (dp_service "https://proxy.example/token") [("code", VStr "abc")] "" "" "" [] dp_ctx = (Ok i, c') /\
    i_url i = "https://proxy.example/token" /\
    exists jws, dget "dpop" (i_headers i) = Some jws /\ is_proof dp0 "key for ES256" (VStr "ES256") "POST" "https://op.example/token" jws.
Proof. eexists. eexists. split; [vm_compute; reflexivity|]. split; [reflexivity|]. eexists. split; reflexivity. Qed.
Print Assumptions C36_configured_endpoint_refuted.
(** A proof under a symmetric key, sent along in the header, is accepted. *)
Theorem C36_symmetric_key_accepted_refuted :
  let jwk := VDict [("kty", VStr "oct"); ("k", VStr "c2VjcmV0")] in
  let j := mkview [("typ", VStr "dpop+jwt"); ("alg", VStr "HS256"); ("jwk", jwk)]
             [("jti", VStr "1"); ("htm", VStr "POST"); ("htu", VStr "https://op.example/token"); ("iat", VInt 0)] (fun k a => val_eqb k jwk && val_eqb a (VStr "HS256")) in
  exists p, verify_header (fun _ => Some j) "proof" = Ok (Some p) /\ proof_verify p = Ok tt /\ dget "alg" p = Some (VStr "HS256").
Proof. cbv zeta. eexists. split; [vm_compute; reflexivity|]. split; reflexivity. Qed.
Print Assumptions C36_symmetric_key_accepted_refuted.

(** ** C37: pushed authorization requests *)
Lemma put_required_get cls req k : forall m, dget k (put_required cls req m) =
  if mem_str k (c_req cls) then Some (match dget k req with Some v => v | None => VNone end) else dget k m.
Proof.
  unfold put_required. induction (c_req cls) as [|p r IH]; intros m; [reflexivity|]. cbn [fold_left]. rewrite IH.
  cbn [mem_str existsb]. fold (mem_str k r). destruct (mem_str k r) eqn:M; [now rewrite orb_true_r|]. rewrite orb_false_r.
  destruct (String.eqb_spec k p) as [->|N]; [apply dget_dset_eq|now rewrite dget_dset_neq by congruence].
Qed.
Lemma push_settings P cls req kw c bf rule ep : par_settings c bf rule ep ->
  push_authorization P cls req kw c =
  ((let! b := (if bf =?s "urlencoded" then msg_to_urlencoded cls req
               else let! jws := par_sign P (base_url c) (msg_to_dict cls req) in
                    Ok (urlencode (msg_pairs cMessage (if rule =?s "lax" then put_required cls req [("request", VStr jws)]
                                                       else [("request", VStr jws)])))) in
    let! (status, text) := par_http P "GET" ep b in
    if (status =? 200)%Z then
      let! resp := msg_from_json cMessage text in
      let! u := dict_get "request_uri" resp in
      match u with
      | VStr u => Ok (if rule =?s "lax" then put_required cls req [("request_uri", VStr u)] else [("request_uri", VStr u)])
      | _ => Err OtherError
      end
    else Ok req), c).
Proof.
  intros ((d & D & B & R) & Ep). unfold push_authorization, par_conf, par_body, is_lax. rewrite D. unfold dict_get. cbn [rbind]. rewrite B, R, Ep. cbn [rbind]. reflexivity.
Qed.

(** after a push that was answered with 200 the request that goes through the browser has
    the reference the provider gave and nothing else, except (merge rule lax) the parameters the
    message class requires *)
Theorem C37_only_the_reference_is_left : forall P s args kw c req c' bf rule ep,
  construct (with_par P s) args kw c = (Ok req, c') -> par_settings c' bf rule ep ->
  (forall b st t, par_http P "GET" ep b = Ok (st, t) -> st = 200%Z) ->
  exists req0 b t u, construct s args kw c = (Ok req0, c') /\ par_http P "GET" ep b = Ok (200%Z, t) /\
    (exists resp, msg_from_json cMessage t = Ok resp /\ dget "request_uri" resp = Some (VStr u)) /\
    forall k, dget k req =
      if (rule =?s "lax") && mem_str k (c_req (s_cls s)) then Some (match dget k req0 with Some v => v | None => VNone end)
      else if k =?s "request_uri" then Some (VStr u) else None.
Proof.
  intros P s args kw c req c' bf rule ep H S A. apply construct_with_par in H as (req0 & kw' & C & H).
  rewrite (push_settings _ _ _ _ _ _ _ _ S) in H. apply pair_equal_spec in H as [H _].
  match type of H with (let! b := ?x in _) = _ => destruct x as [b|]; [|discriminate] end. cbn [rbind] in H.
  destruct (par_http P "GET" ep b) as [[st t]|] eqn:Ht; [|discriminate]. cbn [rbind] in H. pose proof (A _ _ _ Ht) as ->.
  cbn [Z.eqb Pos.eqb] in H. destruct (msg_from_json cMessage t) as [resp|] eqn:J; [|discriminate]. cbn [rbind] in H.
  unfold dict_get in H. destruct (dget "request_uri" resp) as [u|] eqn:U; [|discriminate]. cbn [rbind] in H.
  destruct u as [| | |u| |]; try discriminate. injection H as <-.
  exists req0, b, t, u. repeat split; auto; [eauto|]. intros k. destruct (rule =?s "lax"); cbn [andb].
  - rewrite put_required_get. destruct (mem_str k (c_req (s_cls s))); [reflexivity|]. cbn [dget]. rewrite eqb_sym. now destruct (k =?s "request_uri").
  - cbn [dget]. rewrite eqb_sym. now destruct (k =?s "request_uri").
Qed.
Print Assumptions C37_only_the_reference_is_left.

(** the pushed body holds the whole request: form encoded, every parameter of it, ... *)
Theorem C37_pushed_form_is_the_request : forall P cls req kw c rule ep r,
  par_settings c "urlencoded" rule ep -> push_authorization P cls req kw c = (Ok r, c) ->
  Forall (fun kv => snd kv <> "") (msg_pairs cls req) ->
  exists b a, par_http P "GET" ep b = Ok a /\ parse_qsl b = msg_pairs cls req.
Proof.
  intros P cls req kw c rule ep r S H F. rewrite (push_settings _ _ _ _ _ _ _ _ S) in H. apply pair_equal_spec in H as [H _].
  cbn [String.eqb Ascii.eqb Bool.eqb] in H. unfold msg_to_urlencoded in H. destruct (missing_required cls req); [discriminate|]. cbn [rbind] in H.
  destruct (par_http P "GET" ep _) as [a|] eqn:Ht in H; [|discriminate]. exists (urlencode (msg_pairs cls req)), a.
  split; [exact Ht|]. now apply urlencode_roundtrip.
Qed.
Print Assumptions C37_pushed_form_is_the_request.
(** ... or as a request object that this client signed over all of it *)
Theorem C37_pushed_object_is_the_request : forall P cls req kw c bf ep r,
  bf <> "urlencoded" -> par_settings c bf "strict" ep -> push_authorization P cls req kw c = (Ok r, c) ->
  exists jws b a, par_sign P (base_url c) (msg_to_dict cls req) = Ok jws /\ par_http P "GET" ep b = Ok a /\
    (jws <> "" -> parse_qsl b = [("request", jws)]).
Proof.
  intros P cls req kw c bf ep r N S H. rewrite (push_settings _ _ _ _ _ _ _ _ S) in H. apply pair_equal_spec in H as [H _].
  rewrite (eqb_neq _ _ N) in H. destruct (par_sign P (base_url c) (msg_to_dict cls req)) as [jws|]; [|discriminate].
  cbn [rbind String.eqb Ascii.eqb Bool.eqb] in H.
  destruct (par_http P "GET" ep _) as [a|] eqn:Ht in H; [|discriminate]. eexists jws, _, a. repeat split; [exact Ht|].
  intros J. rewrite urlencode_roundtrip; [reflexivity|]. constructor; [exact J|constructor].
Qed.
Print Assumptions C37_pushed_object_is_the_request.
(** nothing is stored or changed by the push itself *)
Theorem C37_push_changes_nothing : forall P cls req kw c r c', push_authorization P cls req kw c = (r, c') -> c' = c.
Proof. intros P cls req kw c r c' H. unfold push_authorization in H. now apply pair_equal_spec in H as [_ <-]. Qed.
Print Assumptions C37_push_changes_nothing.

(** *** findings *)
(** Any other answer: the complete request goes through the browser after all. *)
Theorem C37_refused_push_is_ignored_refuted : forall P cls req kw c rule ep st t,
  par_settings c "urlencoded" rule ep -> missing_required cls req = false ->
  (forall b, par_http P "GET" ep b = Ok (st, t)) -> st <> 200%Z ->
  push_authorization P cls req kw c = (Ok req, c).
Proof.
  intros P cls req kw c rule ep st t S M A N. rewrite (push_settings _ _ _ _ _ _ _ _ S). cbn [String.eqb Ascii.eqb Bool.eqb].
  unfold msg_to_urlencoded. rewrite M. cbn [rbind]. rewrite A. cbn [rbind]. apply Z.eqb_neq in N. now rewrite N.
Qed.
Print Assumptions C37_refused_push_is_ignored_refuted.
(** With the default merge rule there is no client_id in what is left, so that no URL can be
    made of it. *)
Theorem C37_strict_rule_makes_no_url_refuted : forall A P s args bt kw c bf ep i c',
  s_http_method s = "GET" -> s_extra s = [] -> (forall c, s_authn s c = "") -> In "client_id" (c_req (s_cls s)) ->
  (forall b st t, par_http P "GET" ep b = Ok (st, t) -> st = 200%Z) -> par_settings c' bf "strict" ep ->
  (forall v, match dget "endpoint" kw with Some v => Ok v | None => get_endpoint s c' end = Ok (VStr v) ->
     u_query (urlsplit v) = "") ->
  get_request_parameters A (with_par P s) args "" bt "" kw c <> (Ok i, c').
Proof.
  intros A P s args bt kw c bf ep i c' G X Au R St S Q H. apply grp_inv in H as (req0 & c1 & h & req1 & e & C & Hh & He & Hm & Hr & Hu & _).
  cbn [String.eqb with_par s_authn s_http_method] in Hh, Hm, Hu. rewrite Au in Hh, Hu.
  unfold get_headers, bind, asks, ret in Hh. cbn [String.eqb with_par s_authn s_extra] in Hh. rewrite Au, X in Hh.
  unfold get_authn_header in Hh. cbn [String.eqb run_headers fst snd] in Hh. unfold ret in Hh.
  apply pair_equal_spec in Hh as [Hh1 Hh2]. injection Hh1 as _ ->. subst c1.
  destruct (C37_only_the_reference_is_left _ _ _ _ _ _ _ _ _ _ C S St) as (q0 & b & t & u & _ & _ & _ & K).
  cbn [String.eqb Ascii.eqb Bool.eqb andb] in K.
  rewrite G in Hu. unfold get_http_url in Hu. cbn [mem_str existsb String.eqb Ascii.eqb Bool.eqb orb] in Hu.
  change (get_endpoint (with_par P s)) with (get_endpoint s) in He. specialize (Q e He). rewrite Q in Hu.
  destruct req1 as [|kv r]; [specialize (K "request_uri"); discriminate|].
  cbn [parse_qs parse_qsl] in Hu. change (parse_qs "") with (@nil (string * list string)) in Hu. cbn [map dupdate fold_left] in Hu.
  unfold msg_to_urlencoded in Hu.
  assert (Mi : missing_required (sent_cls (with_par P s) "" (kv :: r)) (kv :: r) = true).
  { unfold missing_required. apply existsb_exists. exists "client_id". split.
    - cbn [sent_cls c_req with_par s_cls String.eqb orb andb]. exact R.
    - unfold dhas. now rewrite K. }
  rewrite Mi in Hu. discriminate.
Qed.
Print Assumptions C37_strict_rule_makes_no_url_refuted.

(** *** the hypotheses are met: OAuth2 authorization service, lax merge *)
Definition par0 : par_env := mkpar (fun b d => Ok "signed") (fun _ _ _ => Ok (200%Z, json_dumps (VDict [("request_uri", VStr "urn:x"); ("expires_in", VInt 60)]))).
Definition par_ctx : ctx :=
  set_add_on [("pushed_authorization", VDict [("body_format", VStr "jws"); ("merge_rule", VStr "lax")])]
    (set_provider_info [("pushed_authorization_request_endpoint", VStr "https://op.example/push")]
       (set_client "client" "secret" (set_redirect_uris ["https://rp.example/cb"] empty_ctx))).
Example ex_C37 : exists req c', construct (with_par par0 (oauth2_authz_service (fun _ m => Ok m) 0 [] []))
     [("response_type", VStr "code"); ("state", VStr "S"); ("foo", VStr "bar")] [("state", VStr "S")] par_ctx = (Ok req, c') /\
  req = [("request_uri", VStr "urn:x"); ("response_type", strs ["code"]); ("client_id", VStr "client")] /\
  par_settings c' "jws" "lax" "https://op.example/push".
Proof.
  eexists. eexists. split; [vm_compute; reflexivity|]. split; [reflexivity|]. split; [|reflexivity].
  eexists. split; [reflexivity|]. split; reflexivity.
Qed.
