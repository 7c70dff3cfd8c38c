(** Property theorem C52: a completed login is bound to its own authorization request.
    Proofs in P_Login.v, specification in S_Login.v. *)
From Verif Require Import Base BaseP Json Msg M_State S_State M_Ctx M_Codec M_Authz M_ClientAuth M_Service M_Token M_Handler
  S_Token S_Handler S_Flow S_Trace S_Login P_State P_Service P_Handler P_Flow P_Login Ex T_Verify.

(** C52: a client makes any calls ([os0]), begins the login [k], makes any other calls
    ([os1]: further logins, their responses, refreshes, logouts, in any order, each with its
    own peer), and finalizes [k].  If that gives ID Token claims, their nonce is the one
    made for, or put in, the authorization request of [k]: an ID Token that was made for
    another login of the same client is not accepted. *)
Theorem C52_id_token_carries_the_nonce_of_the_login : forall cl os0 os1 c0 W0 W reqs beh u k c1 n iss resp collect info tok claims ss c',
  plain_client cl -> sdb c0 = [] -> Forall call_ok os0 -> Forall call_ok os1 ->
  rnd32 (e_state W0) -> (forall m v, e_hash W0 m v <> "") -> uniq reqs -> config_uniq c0 ->
  chosen c0 reqs "nonce" (Some (VStr (e_nonce W0))) = Some (VStr n) -> n <> "" ->
  init_authorization W0 cl reqs beh (run_calls cl os0 c0) = (Ok (u, k), c1) ->
  not_begun k os0 -> (forall o, In o os1 -> leaves k o) ->
  finalize W cl iss resp collect (run_calls cl os1 c1) = (Ok (FOk info (VStr k) tok (VDict claims) ss), c') -> claims <> [] ->
  exists x, dget "nonce" claims = Some (VStr x) /\ (x = n \/ x = e_nonce W0).
Proof. exact login_nonce. Qed.
Print Assumptions C52_id_token_carries_the_nonce_of_the_login.

(** C52: when neither the caller nor the configuration chooses the nonce, the nonce of the
    claims is the one in the URL the user was sent to, beside the state [k]. *)
Theorem C52_nonce_of_the_url : forall cl os0 os1 c0 W0 W reqs beh u k c1 iss resp collect info tok claims ss c' ep,
  plain_client cl -> sdb c0 = [] -> Forall call_ok os0 -> Forall call_ok os1 ->
  rnd32 (e_state W0) -> (forall m v, e_hash W0 m v <> "") -> uniq reqs -> config_uniq c0 ->
  dget "nonce" reqs = None -> configured c0 "nonce" = None -> e_nonce W0 <> "" -> no_request_object beh ->
  dget "authorization_endpoint" (provider_info c0) = Some (VStr ep) -> u_query (urlsplit ep) = "" ->
  init_authorization W0 cl reqs beh (run_calls cl os0 c0) = (Ok (u, k), c1) ->
  not_begun k os0 -> (forall o, In o os1 -> leaves k o) ->
  finalize W cl iss resp collect (run_calls cl os1 c1) = (Ok (FOk info (VStr k) tok (VDict claims) ss), c') -> claims <> [] ->
  dget "nonce" claims = Some (VStr (e_nonce W0)) /\ query_has u "nonce" (e_nonce W0) /\ query_has u "state" k.
Proof. exact login_own_nonce. Qed.
Print Assumptions C52_nonce_of_the_url.

(** C52: the user info that finalize returns is about the subject of the ID Token it
    returns, for every answer of the token and user info endpoints, when the session had no
    token response before.  The exception: user info whose claim sources provide sub. *)
Theorem C52_user_info_is_about_the_id_token_subject : forall cl os c0 W iss resp collect info k tok claims ss c' sub,
  plain_client cl -> sdb c0 = [] -> Forall call_ok os -> rnd32 k ->
  (forall name c m v, e_vrf W name c m = Ok v -> uniq v) ->
  let c := run_calls cl os c0 in ~ has_tokens (sdb c) k ->
  finalize W cl iss resp collect c = (Ok (FOk info (VStr k) tok (VDict claims) ss), c') -> dget "sub" claims = Some sub ->
  info = [] \/ dget "sub" info = Some sub \/
  exists c1 m0 v, e_vrf W "userinfo" c1 m0 = Ok v /\ dget "sub" v = Some sub /\ (In "sub" (claims_from_sources v) \/ In "_claim_names" (claims_from_sources v)).
Proof. exact login_user_info. Qed.
Print Assumptions C52_user_info_is_about_the_id_token_subject.

(** C52: without a user info endpoint the user info is that of the ID Token: all its claims but
    those that are about the token itself (OpenID Connect Core 2, 3.1.3.6, 3.3.2.11, 7.4). *)
Definition token_claims : list string :=
  ["iss"; "aud"; "exp"; "iat"; "auth_time"; "nonce"; "acr"; "amr"; "azp"; "at_hash"; "c_hash"; "sub_jwk"].
Theorem C52_user_info_of_the_id_token : forall W cl iss resp collect c info st tok claims ss c',
  ~ In "userinfo" (cl_services cl) -> uniq claims -> claims <> [] ->
  finalize W cl iss resp collect c = (Ok (FOk info st tok (VDict claims) ss), c') ->
  forall k, dget k info = if mem_str k token_claims then None else dget k claims.
Proof.
  intros W cl iss resp collect c info st tok claims ss c' NU U NE H. unfold finalize in H. apply bind_ok in H. destruct H as (ar & c1 & E1 & H).
  destruct (is_error_message ar). { apply bind_ok in H. destruct H as (? & ? & _ & H). apply bind_ok in H. destruct H as (? & ? & _ & H). discriminate. }
  destruct (dget "state" ar) as [[| | |k0| |]|]; try discriminate. apply bind_ok in H. destruct H as (t & c2 & E2 & H).
  apply bind_ok in H. destruct H as (inf & c3 & E3 & H). apply bind_ok in H. destruct H as ([] & c4 & _ & H). injection H as -> _ _ Hi _ _.
  assert (HS : has_service cl "userinfo" = false). { unfold has_service. destruct (mem_str "userinfo" (cl_services cl)) eqn:E; [|reflexivity]. now apply mem_str_In in E. }
  rewrite HS in E3. cbn [andb] in E3. rewrite Hi in E3. destruct claims as [|kv r]; [easy|].
  assert (info = userinfo_in_id_token (kv :: r)) by (unfold ret in E3; congruence). subst info. clear - U. intros k.
  unfold userinfo_in_id_token. rewrite dget_dupdate.
  assert (F : dget k (rev (filter (fun x => negb (mem_str (fst x) id_token_claims)) (kv :: r))) = if mem_str k id_token_claims then None else dget k (kv :: r)).
  { revert U. generalize (kv :: r). intros l U. rewrite dget_rev_NoDup.
    - clear. induction l as [|[a b] l IH]; [now destruct (mem_str k id_token_claims)|]. cbn [filter fst dget].
      destruct (a =?s k) eqn:E; [apply eqb_true_iff in E; subst a|].
      + destruct (mem_str k id_token_claims) eqn:M; cbn [negb]; [exact IH|]. cbn [dget]. now rewrite eqb_refl.
      + destruct (mem_str a id_token_claims); cbn [negb]; [exact IH|]. cbn [dget]. rewrite E. exact IH.
    - unfold uniq, dkeys in *. clear - U. induction l as [|[a b] l IH]; [constructor|]. cbn [filter fst]. cbn [map fst] in U. inversion U as [|? ? U1 U2]; subst.
      destruct (negb (mem_str a id_token_claims)); [|auto]. cbn [map fst]. constructor; [|auto]. intros I. apply U1. apply in_map_iff in I.
      destruct I as (x & X1 & X2). apply filter_In in X2. apply in_map_iff. exists x. tauto. }
  rewrite F.
  assert (G : forall L, dget k (flat_map (fun q => match dget q (kv :: r) with Some v => [(q, v)] | None => [] end) L) = if mem_str k L then dget k (kv :: r) else None).
  { induction L as [|q L IH]; [reflexivity|]. cbn [flat_map mem_str]. destruct (String.eqb_spec q k) as [->|N].
    - assert (M : mem_str k (k :: L) = true) by (apply mem_str_In; now left). rewrite M. destruct (dget k (kv :: r)) as [v|] eqn:D.
      + cbn [app dget]. now rewrite eqb_refl.
      + cbn [app]. rewrite IH. now destruct (mem_str k L).
    - assert (M : mem_str k (q :: L) = mem_str k L).
      { destruct (mem_str k L) eqn:M1; [apply mem_str_In; right; now apply mem_str_In|]. destruct (mem_str k (q :: L)) eqn:M2; [|reflexivity].
        apply mem_str_In in M2. destruct M2 as [M2|M2]; [congruence|]. apply mem_str_In in M2. congruence. }
      rewrite M, <- IH. destruct (dget q (kv :: r)) as [v|]; [|reflexivity]. cbn [app dget]. now rewrite (eqb_neq _ _ N). }
  rewrite G. clear F G U.
  assert (C : mem_str k id_token_claims = (k =?s "sub") || mem_str k token_claims).
  { unfold id_token_claims, token_claims. cbn [mem_str]. destruct (String.eqb_spec k "sub") as [->|N]; [reflexivity|]. cbn [orb].
    unfold mem_str; cbn [existsb]. rewrite (eqb_neq k "sub" N) || rewrite (eqb_neq "sub" k) by congruence.
    repeat match goal with |- context [k =?s ?x] => destruct (k =?s x) | |- context [?x =?s k] => destruct (x =?s k) end; reflexivity. }
  rewrite C. clear C. destruct (String.eqb_spec k "sub") as [E0|N]; [rewrite E0; cbn [orb]; change (mem_str "sub" schema_claims) with true; change (mem_str "sub" token_claims) with false; reflexivity|].
  cbn [orb]. destruct (mem_str k token_claims) eqn:T; [|destruct (dget k (kv :: r)); [reflexivity|destruct (mem_str k schema_claims); reflexivity]].
  assert (S : mem_str k schema_claims = false); [|now rewrite S]. destruct (mem_str k schema_claims) eqn:S; [|reflexivity]. exfalso.
  apply mem_str_In in T. apply mem_str_In in S. unfold token_claims in T. cbn [In] in T.
  repeat (destruct T as [T|T]; [subst k; revert S; unfold schema_claims; cbn [In]; intuition discriminate|]). exact T.
Qed.
Print Assumptions C52_user_info_of_the_id_token.

(** ** Two logins at once *)
Definition lg_state := "2345abcdefghijklmnopqrstuvwxyz01".
Definition lg_env : env :=
  mkenv 1000 "MmMmMmMmMmMmMmMmMmMmMmMm" lg_state "x2" "n2" "LsLsLsLsLsLsLsLsLsLsLsLsLsLsLsLs" ex_http (fun _ _ => Err OtherError) ex_vrf
    (fun _ => Ok None) (fun _ _ _ _ => Ok "reqobj") ex_authn (fun n => 7 * n) (fun m v => (m ++ "digest")%string).
Definition lg_before : list call := [CInit lg_env [] None].
Definition lg_between : list call := [CFinalizeAuth lg_env "https://op.example" [("code", VStr "c1"); ("state", VStr lg_state)]; CClear lg_state].
Definition lg_final (f : final) : bool :=
  match f with
  | FOk info st _ idt _ => val_eqb st (VStr ex_state) && val_eqb idt (VDict ex_idt) &&
      match dget "sub" info with Some w => val_eqb w (VStr "u1") | None => false end
  | FError _ _ => false
  end.
(** the login of [ex_state], with another login begun before it and given up during it *)
Example C52_ex :
  plain_client ex_client /\ sdb ex_ctx = [] /\ Forall call_ok lg_before /\ Forall call_ok lg_between /\
  rnd32 (e_state ex_env) /\ (forall m v, e_hash ex_env m v <> "") /\ uniq [] /\ config_uniq ex_ctx /\
  configured ex_ctx "nonce" = None /\ dget "authorization_endpoint" (provider_info ex_ctx) = Some (VStr "https://op.example/authz") /\
  u_query (urlsplit "https://op.example/authz") = "" /\
  not_begun ex_state lg_before /\ (forall o, In o lg_between -> leaves ex_state o) /\
  (exists u c1, init_authorization ex_env ex_client [] None (run_calls ex_client lg_before ex_ctx) = (Ok (u, ex_state), c1) /\
   exists f, fst (finalize ex_env ex_client "https://op.example" ex_resp false (run_calls ex_client lg_between c1)) = Ok f /\ lg_final f = true).
Proof.
  assert (R : rnd32 ex_state) by (split; reflexivity).
  split; [split; [split; reflexivity|reflexivity]|]. split; [reflexivity|]. split; [repeat constructor|]. split; [repeat constructor|].
  split; [exact R|]. split; [intros [|] v; discriminate|]. split; [constructor|]. split; [intros d H; discriminate|].
  split; [reflexivity|]. split; [reflexivity|]. split; [reflexivity|].
  split. { intros W r b [H|[]]. injection H as <- _ _. discriminate. }
  split. { intros o [<-|[<-|[]]]; [exact I|]. cbn. discriminate. }
  set (i := init_authorization ex_env ex_client [] None (run_calls ex_client lg_before ex_ctx)).
  assert (E : (match fst i with Ok (u, k) => String.eqb k ex_state | Err _ => false end) = true) by (subst i; vm_compute; reflexivity).
  assert (F : (match fst (finalize ex_env ex_client "https://op.example" ex_resp false (run_calls ex_client lg_between (snd i))) with Ok f => lg_final f | Err _ => false end) = true)
    by (subst i; vm_compute; reflexivity).
  destruct i as [[[u k]|] c1]; [|discriminate]. cbn [fst snd] in *. apply String.eqb_eq in E. subst k. exists u, c1. split; [reflexivity|].
  exact (ok_with _ lg_final _ (fun x H => H) F).
Qed.
(** the same answers for the other login: the ID Token belongs to [ex_state] and is refused *)
Example C52_other_login_ex :
  let c := run_calls ex_client [CInit lg_env [] None; CInit ex_env [] None] ex_ctx in
  exists e, fst (finalize ex_env ex_client "https://op.example" [("code", VStr "c1"); ("state", VStr lg_state)] false c) = Err e.
Proof.
  set (c := run_calls _ _ _). cbv zeta.
  assert (E : (match fst (finalize ex_env ex_client "https://op.example" [("code", VStr "c1"); ("state", VStr lg_state)] false c) with Ok _ => false | Err _ => true end) = true)
    by (subst c; vm_compute; reflexivity).
  destruct (fst _); [discriminate|eauto].
Qed.
(** the hypotheses about the user info; messages are dictionaries *)
Definition lg_uniq : env :=
  mkenv 1000 ex_nonce ex_state "x2" "n2" "LsLsLsLsLsLsLsLsLsLsLsLsLsLsLsLs" ex_http (fun _ _ => Err OtherError)
    (fun n c m => if uniqb m then ex_vrf n c m else Err ValueError)
    (fun _ => Ok None) (fun _ _ _ _ => Ok "reqobj") ex_authn (fun n => 7 * n) (fun m v => (m ++ "digest")%string).
Example C52_user_info_ex :
  let c := run_calls ex_client (lg_before ++ [CInit ex_env [] None]) ex_ctx in
  Forall call_ok (lg_before ++ [CInit ex_env [] None]) /\ ~ has_tokens (sdb c) ex_state /\ (forall name c m v, e_vrf lg_uniq name c m = Ok v -> uniq v) /\ dget "sub" ex_idt = Some (VStr "u1") /\
  exists f, fst (finalize lg_uniq ex_client "https://op.example" ex_resp false c) = Ok f /\ lg_final f = true.
Proof.
  cbv zeta. split; [repeat constructor|]. split.
  - intros (cc & i & H). assert (E : forall cc', (match get_item (sdb (run_calls ex_client (lg_before ++ [CInit ex_env [] None]) ex_ctx)) cc' "token_response" ex_state with Ok _ => false | Err _ => true end) = true).
    { intros cc'. set (d := sdb _). unfold get_item. 
      assert (D : dhas "token_response" (match get_state d ex_state with Ok s => s | Err _ => [] end) = false) by (subst d; vm_compute; reflexivity).
      destruct (get_state d ex_state) as [s|]; [|reflexivity]. unfold dhas in D. cbn. destruct (dget "token_response" s); [discriminate|reflexivity]. }
    specialize (E cc). rewrite H in E. discriminate.
  - split. { cbn. intros n c m v. destruct (uniqb m) eqn:U; [|discriminate]. apply uniqb_NoDup in U. intros [= <-].
      unfold uniq. destruct (dhas _ m); [now apply NoDup_dset|assumption]. }
    split; [reflexivity|]. apply (ok_with _ lg_final _ (fun x H => H)). vm_compute. reflexivity.
Qed.
(** a login without a user info endpoint *)
Definition lg_client : client := mkclient ex_ctx ["authorization"; "accesstoken"] [] true.
Example C52_user_info_of_the_id_token_ex : ~ In "userinfo" (cl_services lg_client) /\ uniq ex_idt /\
  exists f, fst (finalize ex_env lg_client "https://op.example" ex_resp false (run_calls lg_client [CInit ex_env [] None] ex_ctx)) = Ok f /\ lg_final f = true /\
    match f with FOk info _ _ _ _ => dget "nonce" info = None /\ dget "nonce" ex_idt <> None | _ => False end.
Proof.
  split; [cbn; intuition discriminate|]. split; [unfold uniq, dkeys; cbn; repeat constructor; cbn; intuition discriminate|].
  eapply (ok_with _ (fun f => lg_final f && match f with FOk info _ _ _ _ => negb (dhas "nonce" info) && dhas "nonce" ex_idt | _ => false end)).
  - intros f H. apply andb_true_iff in H. destruct H as [H1 H2]. split; [exact H1|]. destruct f as [|info a b i d]; [discriminate|].
    apply andb_true_iff in H2. destruct H2 as [H2 H3]. unfold dhas in H2, H3. destruct (dget "nonce" info); [discriminate|]. split; [reflexivity|].
    destruct (dget "nonce" ex_idt); [discriminate|discriminate H3].
  - vm_compute. reflexivity.
Qed.
