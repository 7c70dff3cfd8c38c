(** Property theorems C26, C28, C34, C38, C41: request construction and response
    handling for every service. *)
From Verif Require Import Base BaseP Json JsonP Msg M_State S_State M_Ctx M_Codec M_Authz M_ClientAuth M_Service
  M_Token S_Service P_Ctx P_Codec P_Service P_Wire.

Lemma sources_eq s c p :
  [ctx_get c p; dget p (conf_request_args s); dget p (register_args c); dget p (s_defaults s); dget p (behaviour c)] = sources s c p.
Proof.
  unfold sources. f_equal; [|f_equal].
  - unfold ctx_get, context_value, context_attributes. cbn [dget find fst snd].
    repeat match goal with |- context [if ?a =?s p then _ else _] => destruct (String.eqb_spec a p); [subst p; reflexivity|] end. reflexivity.
  - unfold conf_request_args, service_setting. destruct (dget "request_args" (s_conf s)) as [[]|]; reflexivity.
Qed.
Lemma gather_sources s c args out : s_gather s = no_gather -> gather_request_args s c args = Ok out ->
  (NoDup (dkeys args) -> NoDup (dkeys out)) /\ forall p,
  (forall v, dget p args = Some v -> dget p out = Some v) /\
  (dget p args = None -> In p (c_par (s_cls s)) -> first_usable (sources s c p) (dget p out)) /\
  (dget p args = None -> ~ In p (c_par (s_cls s)) -> dget p out = None).
Proof.
  intros H1 H2. destruct (gather_spec s c args out H1 H2) as [N G]. split; [exact N|]. intros p.
  destruct (G p) as (G1 & G2 & G3). rewrite sources_eq in G2. auto.
Qed.
Lemma endpoint_eq s kw c ep : match dget "endpoint" kw with Some v => Ok v | None => get_endpoint s c end = Ok (VStr ep) <->
  endpoint_in_use s kw c ep.
Proof.
  unfold endpoint_in_use. destruct (dget "endpoint" kw) as [v|]; [split; congruence|].
  unfold get_endpoint, dict_get. destruct (String.eqb_spec (s_endpoint s) "") as [E|E].
  - destruct (dget (s_endpoint_name s) (provider_info c)) as [v|]; split; intros X; try discriminate.
    + right. split; [exact E|]. congruence.
    + destruct X as [[X _]|[_ X]]; congruence.
    + destruct X as [[X _]|[_ X]]; congruence.
  - split; [intros X; left; split; congruence|]. intros [[_ ->]|[X _]]; congruence.
Qed.

(** ** C41: where a request parameter comes from *)
Theorem C41_argument_precedence : forall s c args out,
  s_gather s = no_gather -> gather_request_args s c args = Ok out -> forall p,
  (forall v, dget p args = Some v -> dget p out = Some v) /\
  (dget p args = None -> In p (c_par (s_cls s)) -> first_usable (sources s c p) (dget p out)) /\
  (dget p args = None -> ~ In p (c_par (s_cls s)) -> dget p out = None).
Proof. intros s c args out H1 H2. exact (proj2 (gather_sources s c args out H1 H2)). Qed.
Print Assumptions C41_argument_precedence.

(** the authorization services: the same, and without any redirect_uri the first one that is
    registered *)
Theorem C41_authorization_precedence : forall s c args out,
  s_gather s = authz_gather -> gather_request_args s c args = Ok out -> forall p,
  (forall v, dget p args = Some v -> dget p out = Some v) /\
  (dget p args = None -> In p (c_par (s_cls s)) -> exists chosen, first_usable (sources s c p) chosen /\
     (chosen <> None \/ p <> "redirect_uri" -> dget p out = chosen) /\
     (chosen = None -> p = "redirect_uri" -> exists u r, redirect_uris c = u :: r /\ dget p out = Some (VStr u))) /\
  (dget p args = None -> ~ In p (c_par (s_cls s)) -> p <> "redirect_uri" -> dget p out = None).
Proof.
  intros s c args out H1 H2 p. unfold gather_request_args in H2. rewrite H1 in H2.
  destruct (gather_loop s c (c_par (s_cls s)) args) as [a|] eqn:E; [|discriminate]. cbn [rbind] in H2.
  destruct (gather_loop_get _ _ _ _ _ E) as [_ G]. specialize (G p).
  assert (O : dget p a <> None \/ p <> "redirect_uri" -> dget p out = dget p a).
  { unfold authz_gather in H2. destruct (dhas "redirect_uri" a) eqn:R; [injection H2 as <-; reflexivity|].
    destruct (redirect_uris c) as [|u r]; [discriminate|]. injection H2 as <-. intros [N|N].
    - destruct (String.eqb_spec p "redirect_uri") as [->|Q]; [|apply dget_dset_neq; congruence].
      unfold dhas in R. now destruct (dget "redirect_uri" a).
    - apply dget_dset_neq. congruence. }
  split; [|split].
  - intros v V. rewrite V in G. rewrite O, G; [reflexivity|]. left. congruence.
  - intros N I. rewrite N in G. apply mem_str_In in I. rewrite I in G. exists (gathered s c p). split; [rewrite <- sources_eq; apply gathered_spec|].
    split; [rewrite <- G; exact O|]. intros Q ->. unfold authz_gather, dhas in H2. rewrite G, Q in H2.
    destruct (redirect_uris c) as [|u r]; [discriminate|]. injection H2 as <-. exists u, r. split; [reflexivity|apply dget_dset_eq].
  - intros N I Q. rewrite N in G. rewrite O by now right. rewrite G. destruct (mem_str p (c_par (s_cls s))) eqn:M; [|reflexivity].
    apply mem_str_In in M. contradiction.
Qed.
Print Assumptions C41_authorization_precedence.
(** the parameters of the standards are among those that are looked for *)
Theorem C41_standard_parameters : forall vrf mkobj now rnd1 rnd2 conf extra,
  incl openid_authorization (c_par (s_cls (oidc_authz_service vrf mkobj now rnd1 rnd2 conf extra))) /\
  incl rfc6749_authorization (c_par (s_cls (oauth2_authz_service vrf now conf extra))) /\
  incl rfc6749_token (c_par (s_cls (oidc_token_service vrf now conf))) /\
  incl rfc6749_token (c_par (s_cls (oauth2_token_service vrf now conf))) /\
  incl rfc6749_refresh (c_par (s_cls (refresh_service vrf now conf))) /\
  incl rp_initiated_logout (c_par (s_cls (end_session_service vrf rnd1 conf))).
Proof.
  intros vrf mkobj now rnd1 rnd2 conf extra. cbn [s_cls oidc_authz_service oauth2_authz_service oidc_token_service oauth2_token_service refresh_service end_session_service].
  repeat split; intros p H; cbn in H |- *; intuition.
Qed.
Print Assumptions C41_standard_parameters.

(** the same for the finished message of a service without hooks of its own *)
Lemma caller_value_eq s args kwargs p :
  dget p (match dget "state" kwargs with
          | Some v => if mem_str "state" (c_par (s_cls s)) then dsetdefault "state" v args else args
          | None => args
          end) = caller_value s args kwargs p.
Proof.
  unfold caller_value. destruct (dget "state" kwargs) as [v|].
  - destruct (mem_str "state" (c_par (s_cls s))).
    + unfold dsetdefault, dhas. destruct (String.eqb_spec p "state") as [->|N].
      * destruct (dget "state" args) eqn:X; [exact X|]. now rewrite dget_dset_eq.
      * destruct (dget "state" args); cbn [andb]; [|rewrite dget_dset_neq by congruence]; now destruct (dget p args).
    + rewrite andb_false_r. now destruct (dget p args).
  - destruct (dget p args); [reflexivity|]. now destruct (_ && _).
Qed.
Theorem C41_constructed_request : forall s c args kwargs req c',
  s_pre s = [] -> s_post s = [] -> s_gather s = no_gather -> NoDup (dkeys args) ->
  construct s args kwargs c = (Ok req, c') ->
  c' = c /\ forall p, exists o,
    (forall v, caller_value s args kwargs p = Some v -> o = Some v) /\
    (caller_value s args kwargs p = None -> In p (c_par (s_cls s)) -> first_usable (sources s c p) o) /\
    (caller_value s args kwargs p = None -> ~ In p (c_par (s_cls s)) -> o = None) /\
    dget p req = match o with
                 | Some v => if skipped v then dget p (c_default (s_cls s)) else shown (s_cls s) p v
                 | None => dget p (c_default (s_cls s))
                 end.
Proof.
  intros s c args kwargs req c' H1 H2 H3 H5 H.
  destruct (construct_plain _ _ _ _ _ _ H1 H2 H) as (-> & out & Hg & Hm). split; [reflexivity|].
  destruct (gather_sources _ _ _ _ H3 Hg) as [N G]. intros p. exists (dget p out). destruct (G p) as (G1 & G2 & G3).
  rewrite caller_value_eq in G1, G2, G3.
  split; [exact G1|]. split; [exact G2|]. split; [exact G3|]. apply msg_new_get; [|exact Hm].
  apply N. destruct (dget "state" kwargs); [|exact H5]. destruct (mem_str _ _); [|exact H5].
  unfold dsetdefault. destruct (dhas _ _); [exact H5|]. now apply NoDup_dset.
Qed.
Print Assumptions C41_constructed_request.

(** a parameter nobody declares and the caller does not give is never sent; a 'state'
    keyword argument alone does not put a state into a request without such a parameter *)
Theorem C41_nothing_undeclared_leaks : forall s c args kwargs req c' p,
  s_pre s = [] -> s_post s = [] -> s_gather s = no_gather -> NoDup (dkeys args) ->
  construct s args kwargs c = (Ok req, c') ->
  dget p args = None -> ~ In p (c_par (s_cls s)) -> dget p (c_default (s_cls s)) = None -> dget p req = None.
Proof.
  intros s c args kwargs req c' p H1 H2 H3 H5 H Ha Hp Hd.
  destruct (C41_constructed_request s c args kwargs req c' H1 H2 H3 H5 H) as [_ G].
  destruct (G p) as (o & _ & _ & G3 & ->). rewrite G3; [exact Hd| |exact Hp].
  unfold caller_value. rewrite Ha. destruct (String.eqb_spec p "state") as [->|]; [|reflexivity].
  destruct (mem_str "state" _) eqn:X; [|reflexivity]. apply mem_str_In in X. contradiction.
Qed.
Print Assumptions C41_nothing_undeclared_leaks.

(** ** C34: where the parameters travel *)
Theorem C34_get_parameters_in_query : forall E s args m bt au kw c i c',
  get_request_parameters E s args m bt au kw c = (Ok i, c') ->
  In (i_method i) ["GET"; "DELETE"] -> i_request i <> [] ->
  exists ep,
    endpoint_in_use s kw c' ep /\
    i_body i = None /\
    u_base (urlsplit (i_url i)) = u_base (urlsplit ep) /\
    u_fragment (urlsplit (i_url i)) = u_fragment (urlsplit ep) /\
    (Forall (fun kv => snd kv <> "") (msg_pairs (s_cls s) (with_query ep (i_request i))) ->
     parse_qsl (u_query (urlsplit (i_url i))) = msg_pairs (s_cls s) (with_query ep (i_request i))).
Proof.
  intros E s args m bt au kw c i c' H Hm Hr.
  destruct (grp_inv _ _ _ _ _ _ _ _ _ _ H) as (req0 & c1 & h & req1 & ep & _ & _ & He & Em & Er & Hu & Hb).
  exists ep. split; [now apply endpoint_eq|]. subst req1. rewrite <- Em in *.
  assert (Hp : (i_method i =?s "POST") = false).
  { apply eqb_neq. intros X. rewrite X in Hm. destruct Hm as [|[|[]]]; discriminate. }
  rewrite Hp in Hb. destruct Hb as [Hb _]. split; [exact Hb|].
  assert (Hm' : mem_str (i_method i) ["GET"; "DELETE"] = true) by now apply mem_str_In.
  destruct (http_url_get _ _ _ _ _ Hm' Hr Hu) as (_ & B1 & B2 & B3). split; [exact B1|]. split; [exact B2|].
  intros Hf. rewrite B3. now apply urlencode_roundtrip.
Qed.
Print Assumptions C34_get_parameters_in_query.

Theorem C34_get_every_parameter_in_query : forall E s args m bt au kw c i c' ep p v,
  get_request_parameters E s args m bt au kw c = (Ok i, c') ->
  In (i_method i) ["GET"; "DELETE"] ->
  endpoint_in_use s kw c' ep ->
  char_in "?"%char ep = false -> char_in "#"%char ep = false ->
  Forall (fun kv => snd kv <> "") (msg_pairs (s_cls s) (i_request i)) ->
  dget p (i_request i) = Some (VStr v) -> In (p, v) (parse_qsl (u_query (urlsplit (i_url i)))).
Proof.
  intros E s args m bt au kw c i c' ep p v H Hm He H1 H2 Hf Hp.
  assert (Hr : i_request i <> []) by (intros X; rewrite X in Hp; discriminate).
  destruct (C34_get_parameters_in_query _ _ _ _ _ _ _ _ _ _ H Hm Hr) as (ep' & He' & _ & _ & _ & Q).
  assert (ep' = ep) by (apply endpoint_eq in He, He'; congruence). subst ep'.
  assert (W : with_query ep (i_request i) = i_request i) by (unfold with_query; now rewrite urlsplit_plain).
  rewrite W in Q. rewrite (Q Hf). unfold msg_pairs. apply in_flat_map. exists (p, VStr v).
  split; [now apply dget_In|]. simpl. auto.
Qed.
Print Assumptions C34_get_every_parameter_in_query.

(** what the endpoint's own query says wins over the request *)
Theorem C34_endpoint_query_overrides_request : forall ep req p vs,
  NoDup (dkeys (parse_qs (u_query (urlsplit ep)))) ->
  dget p (parse_qs (u_query (urlsplit ep))) = Some vs -> dget p (with_query ep req) = Some (strs vs).
Proof.
  intros ep req p vs N H. unfold with_query. rewrite dget_dupdate_NoDup.
  - assert (X : forall l : dict (list string), dget p (map (fun kv => (fst kv, strs (snd kv))) l) =
       match dget p l with Some v => Some (strs v) | None => None end).
    { induction l as [|[k w] r IH]; simpl; [reflexivity|]. now destruct (k =?s p). }
    now rewrite X, H.
  - unfold dkeys in *. rewrite map_map. exact N.
Qed.
Print Assumptions C34_endpoint_query_overrides_request.

Theorem C34_post_parameters_in_body : forall E s args m bt au kw c i c',
  get_request_parameters E s args m bt au kw c = (Ok i, c') -> i_method i = "POST" ->
  let typ := if bt =?s "" then s_req_type s else bt in
  endpoint_in_use s kw c' (i_url i) /\
  (forall ct, In (typ, ct) media_types -> dget "Content-Type" (i_headers i) = Some ct) /\
  (typ = "urlencoded" -> exists b, i_body i = Some (BText b) /\
     (Forall (fun kv => snd kv <> "") (msg_pairs (s_cls s) (i_request i)) ->
      parse_qsl b = msg_pairs (s_cls s) (i_request i))) /\
  (typ = "json" -> exists b, i_body i = Some (BText b) /\
     json_loads b = Some (VDict (msg_to_dict (s_cls s) (i_request i)))).
Proof.
  intros E s args m bt au kw c i c' H Hm typ.
  destruct (grp_inv _ _ _ _ _ _ _ _ _ _ H) as (req0 & c1 & h & req1 & ep & _ & _ & He & Em & Er & Hu & Hb).
  rewrite <- Em in *. rewrite Hm in *. subst req1. rewrite http_url_other in Hu by reflexivity. injection Hu as ->.
  simpl in Hb. destruct Hb as (b & Hbody & Hb & Hh). fold typ in Hbody, Hh.
  split; [now apply endpoint_eq|]. split.
  { intros ct Hct. rewrite Hh, dget_dset_eq. f_equal. clear - Hct. cbn in Hct.
    repeat (destruct Hct as [X|Hct]; [injection X as <- <-; reflexivity|]). destruct Hct. }
  split.
  - intros ->. change (body_content_type "urlencoded") with URL_ENCODED in Hbody.
    unfold get_http_body, msg_to_urlencoded in Hbody. change (contains URL_ENCODED URL_ENCODED) with true in Hbody.
    cbn [rbind] in Hbody. destruct (missing_required _ _); [discriminate|]. injection Hbody as <-.
    eexists. split; [exact Hb|]. apply urlencode_roundtrip.
  - intros ->. change (body_content_type "json") with JSON_ENCODED in Hbody.
    unfold get_http_body in Hbody. change (contains URL_ENCODED JSON_ENCODED) with false in Hbody.
    change (contains JSON_ENCODED JSON_ENCODED) with true in Hbody. injection Hbody as <-.
    eexists. split; [exact Hb|]. apply json_roundtrip.
Qed.
Print Assumptions C34_post_parameters_in_body.

(** every text or scope-like parameter arrives *)
Lemma all_strs_map ws : all_strs (map VStr ws) = Some ws.
Proof. induction ws as [|a r IH]; [reflexivity|]. simpl. now rewrite IH. Qed.
Theorem C34_post_every_parameter_in_body : forall E s args m bt au kw c i c' p,
  get_request_parameters E s args m bt au kw c = (Ok i, c') -> i_method i = "POST" ->
  (if bt =?s "" then s_req_type s else bt) = "urlencoded" ->
  Forall (fun kv => snd kv <> "") (msg_pairs (s_cls s) (i_request i)) ->
  exists b, i_body i = Some (BText b) /\
    (forall v, dget p (i_request i) = Some (VStr v) -> In (p, v) (parse_qsl b)) /\
    (forall ws, In p (c_sp (s_cls s)) -> ~ In p (c_json (s_cls s)) -> dget p (i_request i) = Some (strs ws) -> In (p, join " " ws) (parse_qsl b)).
Proof.
  intros E s args m bt au kw c i c' p H Hm Ht Hf.
  destruct (C34_post_parameters_in_body _ _ _ _ _ _ _ _ _ _ H Hm) as (_ & _ & Hb & _).
  destruct (Hb Ht) as (b & B1 & B2). exists b. split; [exact B1|]. rewrite (B2 Hf). unfold msg_pairs. split.
  - intros v Hv. apply in_flat_map. exists (p, VStr v). split; [now apply dget_In|]. simpl. auto.
  - intros ws Hc Hj Hv. apply in_flat_map. exists (p, strs ws). split; [now apply dget_In|]. apply mem_str_In in Hc.
    unfold strs, qs_param. rewrite Hc. left. unfold ser_param.
    destruct (mem_str p (c_json (s_cls s))) eqn:X; [exfalso; apply Hj; now apply mem_str_In|].
    rewrite Hc, all_strs_map. reflexivity.
Qed.
Print Assumptions C34_post_every_parameter_in_body.

(** a required parameter that is missing is never sent out form encoded (except a
    token that client authentication moved to the header) *)
Theorem C34_required_parameters_present : forall E s args m bt au kw c i c' p,
  get_request_parameters E s args m bt au kw c = (Ok i, c') -> i_method i = "POST" ->
  (if bt =?s "" then s_req_type s else bt) = "urlencoded" -> In p (c_req (s_cls s)) ->
  ~ In p ["access_token"; "refresh_token"] -> dhas p (i_request i) = true.
Proof.
  intros E s args m bt au kw c i c' p H Hm Ht Hp Hnt.
  destruct (grp_inv _ _ _ _ _ _ _ _ _ _ H) as (req0 & c1 & h & req1 & ep & _ & _ & He & Em & Er & Hu & Hb).
  rewrite <- Em, Hm in *. subst req1. simpl in Hb. destruct Hb as (b & Hbody & _). rewrite Ht in Hbody.
  change (body_content_type "urlencoded") with URL_ENCODED in Hbody.
  unfold get_http_body, msg_to_urlencoded in Hbody. change (contains URL_ENCODED URL_ENCODED) with true in Hbody.
  cbn [rbind] in Hbody. destruct (missing_required _ (i_request i)) eqn:X; [discriminate|].
  unfold missing_required in X. destruct (dhas p (i_request i)) eqn:D; [reflexivity|].
  exfalso. unfold sent_cls in X. cbn [c_req] in X. rewrite <- not_true_iff_false in X. apply X.
  apply existsb_exists. exists p. split; [|now rewrite D].
  match goal with |- In p (if ?b then _ else _) => destruct b end; [|assumption].
  apply filter_In. split; [assumption|]. rewrite negb_true_iff. apply eqb_neq. intros ->. apply Hnt.
  match goal with |- In (if ?b then _ else _) _ => destruct b end; simpl; auto.
Qed.
Print Assumptions C34_required_parameters_present.

(** the full claim fails for other methods: a PUT request has neither body nor query *)
Theorem C34_put_sends_no_parameters_refuted : forall E s args bt au kw c i c',
  get_request_parameters E s args "PUT" bt au kw c = (Ok i, c') ->
  i_body i = None /\ endpoint_in_use s kw c' (i_url i).
Proof.
  intros E s args bt au kw c i c' H.
  destruct (grp_inv _ _ _ _ _ _ _ _ _ _ H) as (req0 & c1 & h & req1 & ep & _ & _ & He & Em & Er & Hu & Hb).
  simpl in *. rewrite http_url_other in Hu by reflexivity. injection Hu as ->. split; [tauto|]. now apply endpoint_eq.
Qed.
Print Assumptions C34_put_sends_no_parameters_refuted.

(** ** C28: the endpoint *)
Theorem C28_request_goes_to_configured_or_published_endpoint : forall E s args m bt au kw c i c',
  get_request_parameters E s args m bt au kw c = (Ok i, c') -> dget "endpoint" kw = None ->
  exists ep, u_base (urlsplit (i_url i)) = u_base (urlsplit ep) /\
    ((s_endpoint s <> "" /\ ep = s_endpoint s) \/
     (s_endpoint s = "" /\ dget (s_endpoint_name s) (provider_info c') = Some (VStr ep))).
Proof.
  intros E s args m bt au kw c i c' H Hk.
  destruct (grp_inv _ _ _ _ _ _ _ _ _ _ H) as (req0 & c1 & h & req1 & ep & _ & _ & He & Em & Er & Hu & Hb).
  rewrite Hk in He. exists ep. split.
  - rewrite <- Em in *. destruct (mem_str (i_method i) ["GET"; "DELETE"]) eqn:X.
    + destruct req1 as [|x l].
      * unfold get_http_url in Hu. rewrite X in Hu. now injection Hu as ->.
      * assert (N : x :: l <> []) by easy. now destruct (http_url_get _ _ _ _ _ X N Hu) as (_ & -> & _).
    + rewrite http_url_other in Hu by assumption. now injection Hu as ->.
  - unfold get_endpoint in He. destruct (String.eqb_spec (s_endpoint s) "").
    + right. split; [assumption|]. unfold dict_get in He. destruct (dget (s_endpoint_name s) (provider_info c')); [now injection He as ->|discriminate].
    + left. split; [assumption|]. now injection He as ->.
Qed.
Print Assumptions C28_request_goes_to_configured_or_published_endpoint.
Theorem C28_no_endpoint_no_request : forall E s args m bt au kw c r c',
  get_request_parameters E s args m bt au kw c = (r, c') -> dget "endpoint" kw = None ->
  s_endpoint s = "" -> dget (s_endpoint_name s) (provider_info c') = None -> exists e, r = Err e.
Proof.
  intros E s args m bt au kw c r c' H Hk Hs Hp. destruct r as [i|e]; [|eauto].
  destruct (C28_request_goes_to_configured_or_published_endpoint _ _ _ _ _ _ _ _ _ _ H Hk) as (ep & _ & [[A _]|[_ A]]); congruence.
Qed.
Print Assumptions C28_no_endpoint_no_request.

(** ** C38: classification of the HTTP answer *)
Theorem C38_status_classification : forall jwt s h rbt st c r c', reads_only (s_post_parse s) ->
  parse_request_response jwt s h rbt st c = (r, c') ->
  match r with
  | Ok (RMsg m) =>
      (In (h_status h) [200; 201; 202; 203; 204; 205; 206]%Z /\ m <> [] /\ (dhas "error" m = true \/ accepted s c m)) \/
      ((400 <= h_status h < 500)%Z /\ dget "status_code" m = Some (VInt (h_status h)))
  | Ok (RHttp h') => h' = h /\ In (h_status h) [302; 303]%Z
  | Ok (RText _) => False
  | Err e => h_status h = 500%Z -> e = ParseError
  end.
Proof.
  intros jwt s h rbt st c r c' Hro H. destruct (prr_spec _ _ _ _ _ _ _ _ Hro H) as [_ P].
  destruct r as [[m|t|h']|e]; auto.
  - destruct P as [(P1 & P2 & P3)|(P1 & m1 & -> & _)].
    + left. split; [|auto]. unfold zmem in P1. apply existsb_exists in P1. destruct P1 as (z & Hz & Ez).
      apply Z.eqb_eq in Ez. now subst z.
    + right. split; [exact P1|]. apply dget_dset_eq.
  - exact (proj1 P).
Qed.
Print Assumptions C38_status_classification.
(** 5xx and every other unexpected status raise *)
Theorem C38_other_statuses_raise : forall jwt s h rbt st c r c', reads_only (s_post_parse s) ->
  parse_request_response jwt s h rbt st c = (r, c') ->
  ~ In (h_status h) [200; 201; 202; 203; 204; 205; 206; 302; 303]%Z -> ~ (400 <= h_status h < 500)%Z ->
  r = Err (if (h_status h =? 500)%Z then ParseError else OidcServiceError).
Proof.
  intros jwt s h rbt st c r c' Hro H N1 N2. destruct (prr_spec _ _ _ _ _ _ _ _ Hro H) as [_ P].
  destruct r as [[m|t|h']|e].
  - destruct P as [(P1 & _)|(P1 & _)]; [|contradiction]. exfalso. apply N1.
    unfold zmem in P1. apply existsb_exists in P1. destruct P1 as (z & Hz & Ez).
    apply Z.eqb_eq in Ez. subst z. unfold SUCCESSFUL in Hz. simpl in *. intuition.
  - contradiction.
  - destruct P as [_ P]. exfalso. apply N1. simpl in *. intuition.
  - destruct P as [P1 P2]. f_equal. destruct (Z.eqb_spec (h_status h) 500); [auto|]. apply P2; [|assumption].
    destruct (zmem _ _) eqn:X; [|reflexivity]. exfalso. unfold zmem in X. apply existsb_exists in X.
    destruct X as (z & Hz & Ez). apply Z.eqb_eq in Ez. subst z. simpl in *. intuition.
Qed.
Print Assumptions C38_other_statuses_raise.

(** ** C26: what an answer may change *)
Theorem C26_change_only_after_verification : forall http jwt s u m b rbt h state c r c',
  service_request http jwt s u m b rbt h state c = (r, c') -> c' = c \/ verified_ok s c.
Proof. exact service_request_changes. Qed.
Print Assumptions C26_change_only_after_verification.
(** with response hooks that only read (all services but userinfo): the context
    changes through update_service_context of an accepted message only, and an error
    answer or a failed parse changes nothing *)
Theorem C26_error_answers_change_nothing : forall http jwt s u m b rbt h state c r c',
  reads_only (s_post_parse s) ->
  service_request http jwt s u m b rbt h state c = (r, c') ->
  (c' = c /\ match r with Ok (RMsg x) => dhas "error" x = true | _ => True end) \/
  (exists resp msg, http u m b h = Ok resp /\ dhas "error" msg = false /\
     ((In (h_status resp) [200; 201; 202; 203; 204; 205; 206]%Z /\ accepted s c msg) \/
      ((400 <= h_status resp < 500)%Z /\ exists m1, accepted s c m1 /\ msg = dset "status_code" (VInt (h_status resp)) m1)) /\
     exists r0, s_update s msg (match state with Some x => x | None => "" end) c = (r0, c') /\
       r = match r0 with Ok x => Ok (RMsg x) | Err e => Err e end).
Proof.
  intros http jwt s u m b rbt h state c r c' R H.
  destruct (service_request_spec _ _ _ _ _ _ _ _ _ _ _ _ R H) as [X|(resp & msg & X1 & X2 & X3 & X4)]; [left; exact X|right].
  exists resp, msg. split; [exact X1|]. split; [exact X2|]. split; [|exact X4]. destruct X3 as [[X3 X5]|X3]; [left|right; exact X3].
  split; [|exact X5]. unfold zmem in X3. apply existsb_exists in X3. destruct X3 as (z & Hz & Ez). apply Z.eqb_eq in Ez. now subst z.
Qed.
Print Assumptions C26_error_answers_change_nothing.
Theorem C26_returned_error_means_unchanged : forall http jwt s u m b rbt h state c x c',
  reads_only (s_post_parse s) -> (forall y st c1 z c2, s_update s y st c1 = (Ok z, c2) -> dhas "error" z = dhas "error" y) ->
  service_request http jwt s u m b rbt h state c = (Ok (RMsg x), c') -> dhas "error" x = true -> c' = c.
Proof.
  intros http jwt s u m b rbt h state c x c' Hro Hu H He.
  destruct (service_request_spec _ _ _ _ _ _ _ _ _ _ _ _ Hro H) as [[-> _]|(resp & msg & _ & Hm & _ & r0 & Hs & Hr)]; [reflexivity|].
  destruct r0 as [z|]; [|discriminate]. injection Hr as <-. apply Hu in Hs. congruence.
Qed.
Print Assumptions C26_returned_error_means_unchanged.

(** ** what is false: a 4xx answer whose body has no 'error' member is verified and
    then stored like a success *)
Definition any_vrf (_ : ctx) (m : msg) : res msg := Ok m.
Definition no_jwt : jwt_oracle := fun _ _ => Err ValueError.
Definition forbidden : http_client := fun _ _ _ _ =>
  Ok (mkresp 403 (Some "application/json") "{""access_token"": ""evil"", ""token_type"": ""Bearer""}").
Definition tok_ctx : ctx :=
  set_db (snd (crun [] [Create "AAAAAAAAAAAAAAAAAAAAAAAAAAAAAAAA" "https://op" ""])) (set_issuer "https://op" empty_ctx).
Definition bad_run := service_request forbidden no_jwt (oauth2_token_service any_vrf 0 []) "https://op/token" "POST" None "json" []
  (Some "AAAAAAAAAAAAAAAAAAAAAAAAAAAAAAAA") tok_ctx.
Theorem C26_client_error_without_error_member_is_stored_refuted :
  exists c', service_request forbidden no_jwt (oauth2_token_service any_vrf 0 []) "https://op/token" "POST" None "json" []
      (Some "AAAAAAAAAAAAAAAAAAAAAAAAAAAAAAAA") tok_ctx
    = (Ok (RMsg [("access_token", VStr "evil"); ("token_type", VStr "Bearer"); ("status_code", VInt 403)]), c') /\
    get_item (sdb c') cTokenResponse "token_response" "AAAAAAAAAAAAAAAAAAAAAAAAAAAAAAAA" =
      Ok [("access_token", VStr "evil"); ("token_type", VStr "Bearer"); ("status_code", VInt 403)].
Proof. exists (snd bad_run). split; vm_compute; reflexivity. Qed.
Print Assumptions C26_client_error_without_error_member_is_stored_refuted.
Theorem C38_client_error_without_error_member_refuted :
  exists h m, h_status h = 403%Z /\ dhas "error" m = false /\
    fst (parse_request_response no_jwt (oauth2_token_service any_vrf 0 []) h "json" "" empty_ctx) = Ok (RMsg m).
Proof.
  exists (mkresp 403 (Some "application/json") "{""access_token"": ""evil"", ""token_type"": ""Bearer""}").
  eexists. split; [reflexivity|]. split; [|vm_compute; reflexivity]. reflexivity.
Qed.
Print Assumptions C38_client_error_without_error_member_refuted.

(** ** the hypotheses hold for the services of the library *)
Lemma pass_reads_only : reads_only pass.
Proof. intros m st c r c' H. now injection H as _ <-. Qed.
Lemma token_services_read_only : forall vrf now conf,
  reads_only (s_post_parse (oauth2_token_service vrf now conf)) /\
  reads_only (s_post_parse (oidc_token_service vrf now conf)) /\
  reads_only (s_post_parse (refresh_service vrf now conf)).
Proof. intros. repeat split; exact pass_reads_only. Qed.
Lemma store_token_error now y st c z c' : store_token_response now y st c = (Ok z, c') -> dhas "error" z = dhas "error" y.
Proof.
  unfold store_token_response, add_expires_at, bind, on_db, ret, raise. intros H.
  destruct (dget "expires_in" y) as [v|].
  - destruct (to_int v); [|discriminate]. dmH H. destruct r; [|discriminate]. injection H as <- _.
    rewrite dhas_dset. reflexivity.
  - dmH H. destruct r; [|discriminate]. now injection H as <- _.
Qed.

(** ** examples *)
Definition E0 : authn_env :=
  {| ae_sgn := fun _ _ _ => "sig"; ae_own := []; ae_sig_kids := []; ae_jti := "jti"; ae_now := 0 |}.
Definition plain_service : service :=
  mkservice "s" cAuthzRequest false cMessage "" "authorization_endpoint" "GET" "urlencoded" "json" (fun _ => "")
    [("request_args", VDict [("display", VStr "page"); ("state", VStr "x")])] [("scope", strs ["openid"])] [] [] no_gather []
    any_vrf pass pass None.
Definition ex_ctx : ctx :=
  set_provider_info [("authorization_endpoint", VStr "https://op/authz?tenant=1")]
    (set_client "cid" "sec" (set_behaviour [("scope", strs ["email"]); ("prompt", VStr "login")] empty_ctx)).
Definition ex_args : dict val :=
  [("state", VStr "st"); ("response_type", VStr "code"); ("redirect_uri", VStr "https://rp/cb"); ("foo", VStr "b ar")].
Example construct_example :
  construct plain_service ex_args [] ex_ctx =
  (Ok [("state", VStr "st"); ("response_type", strs ["code"]); ("redirect_uri", VStr "https://rp/cb"); ("foo", VStr "b ar");
       ("client_id", VStr "cid"); ("scope", strs ["openid"]); ("display", VStr "page"); ("prompt", strs ["login"])], ex_ctx).
Proof. vm_compute. reflexivity. Qed.
Example request_example :
  match get_request_parameters E0 plain_service ex_args "" "" "" [] ex_ctx with
  | (Ok i, _) => i_url i = "https://op/authz?state=st&response_type=code&redirect_uri=https%3A%2F%2Frp%2Fcb&foo=b+ar&client_id=cid&scope=openid&display=page&prompt=login&tenant=1"
  | _ => False
  end.
Proof. vm_compute. reflexivity. Qed.
Example put_example :
  match get_request_parameters E0 plain_service ex_args "PUT" "" "" [] ex_ctx with
  | (Ok i, _) => i_body i = None /\ i_url i = "https://op/authz?tenant=1"
  | _ => False
  end.
Proof. vm_compute. auto. Qed.
Example ex_C41_authorization :
  let s conf := oauth2_authz_service any_vrf 0 conf [] in
  let c := set_redirect_uris ["https://rp/cb"; "https://rp/other"] ex_ctx in
  gather_request_args (s []) c [("state", VStr "st")] =
    Ok [("state", VStr "st"); ("client_id", VStr "cid"); ("scope", strs ["email"]); ("redirect_uri", VStr "https://rp/cb")] /\
  gather_request_args (s [("request_args", VDict [("redirect_uri", VStr "https://rp/conf")])]) c [("state", VStr "st")] =
    Ok [("state", VStr "st"); ("client_id", VStr "cid"); ("redirect_uri", VStr "https://rp/conf"); ("scope", strs ["email"])].
Proof. vm_compute. split; reflexivity. Qed.

(** C34: what each parameter of a request becomes in the query or the form body: the texts
    with the parameter's name are those of its value. *)
Theorem C34_values_as_text : forall cls m p v, NoDup (dkeys m) -> ~ In p (c_json cls) -> dget p m = Some v ->
  (mem_str p (c_sp cls) = true -> forall l, v = VList l -> exists ws, v = strs ws) ->
  sent_as (mem_str p (c_sp cls)) v (map snd (filter (fun kv => fst kv =?s p) (msg_pairs cls m))).
Proof.
  intros cls m p v N J D W. fold (values_of p (msg_pairs cls m)). rewrite (msg_pairs_values cls m p v N D).
  assert (T : forall w, text_of w (str_val w)).
  { intros [|[]|z|s|l|d]; cbn [str_val]; constructor. exact (dec_parse z). }
  destruct v as [|b|z|s|l|d]; cbn [qs_param map snd].
  - constructor.
  - apply sent_one; [discriminate|discriminate|apply T].
  - apply sent_one; [discriminate|discriminate|apply T].
  - apply sent_one; [discriminate|discriminate|apply T].
  - destruct (mem_str p (c_sp cls)) eqn:M.
    + destruct (W eq_refl l eq_refl) as [ws E]. assert (l = map VStr ws) by (unfold strs in E; congruence). subst l.
      unfold ser_param. assert (X : mem_str p (c_json cls) = false). { destruct (mem_str p (c_json cls)) eqn:X; [|reflexivity]. now apply mem_str_In in X. }
      rewrite X, M, all_strs_map. cbn [snd str_val map]. now apply sent_words.
    + apply sent_list; [reflexivity|]. rewrite map_map. cbn [snd]. clear - T. induction l as [|w l IH]; constructor; auto.
  - apply sent_one; [discriminate|discriminate|apply T].
Qed.
Print Assumptions C34_values_as_text.
Example C34_values_as_text_ex :
  let m := [("max_age", VInt 3600); ("offline", VBool false); ("scope", strs ["openid"; "email"]); ("resource", strs ["a"; "b"])] in
  forall p, In p ["max_age"; "offline"; "scope"; "resource"] -> exists v, dget p m = Some v /\ NoDup (dkeys m) /\ ~ In p (c_json cAuthzRequest) /\
    map snd (filter (fun kv => fst kv =?s p) (msg_pairs cAuthzRequest m)) =
    (if p =?s "max_age" then ["3600"] else if p =?s "offline" then ["False"] else if p =?s "scope" then ["openid email"] else ["a"; "b"]).
Proof.
  cbv zeta. intros p H. cbn [In] in H. repeat (destruct H as [<-|H]; [eexists; split; [reflexivity|]; split; [unfold dkeys; cbn; repeat constructor; cbn; intuition discriminate|]; split; [cbn; intuition discriminate|vm_compute; reflexivity]|]). contradiction.
Qed.
