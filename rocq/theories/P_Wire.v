(** What a form encoded text says about a request, and inversion of the request
    pipeline. *)
From Verif Require Import Base BaseP Json JsonP Msg M_State S_State P_State M_Ctx M_Codec M_Authz M_ClientAuth
  M_Service M_Token S_Service P_Ctx P_Codec P_ClientAuth P_Service.

(** break every computation in the hypotheses that is known to succeed *)
Ltac brk :=
  repeat match goal with
  | H : Ok _ = Ok _ |- _ => injection H; clear H; intros; subst
  | H : Err _ = Ok _ |- _ => discriminate H
  | H : Some _ = Some _ |- _ => injection H; clear H; intros; subst
  | H : (_, _) = (_, _) |- _ => injection H; clear H; intros; subst
  | H : None = Some _ |- _ => discriminate H
  | H : Some _ = None |- _ => discriminate H
  | H : rbind ?x _ = Ok _ |- _ => let E := fresh "E" in destruct x eqn:E; cbn [rbind] in H
  | H : match ?x with _ => _ end = Ok _ |- _ => let E := fresh "E" in destruct x eqn:E
  end.

(** ** form encoded texts *)
Definition nonblank (kv : string * string) : bool := negb (snd kv =?s "").
Lemma dec_enc_blank k : dec_pair (enc_pair (k, "")) = [].
Proof.
  unfold dec_pair, enc_pair. cbn [fst snd].
  replace (split1 "="%char (quote_plus k ++ "=" ++ quote_plus "")%string) with (Some (quote_plus k, "")); [reflexivity|].
  symmetry. apply split1_Some. split; [reflexivity|]. now apply quote_no.
Qed.
Lemma parse_urlencode l : parse_qsl (urlencode l) = filter nonblank l.
Proof.
  unfold parse_qsl, urlencode. destruct l as [|kv l]; [reflexivity|].
  change "&" with (String "&"%char "").
  rewrite split_join.
  - generalize (kv :: l). clear. induction l as [|[k v] r IH]; [reflexivity|]. cbn [map flat_map filter]. rewrite IH.
    unfold nonblank at 2. cbn [snd]. destruct (String.eqb_spec v ""); cbn [negb].
    + subst. now rewrite dec_enc_blank.
    + now rewrite dec_enc_pair.
  - easy.
  - rewrite forallb_forall. intros x Hx. apply in_map_iff in Hx. destruct Hx as (y & <- & _). now rewrite enc_pair_no_amp.
Qed.
(** the values given for one name *)
Definition values_of (p : string) (l : list (string * string)) : list string :=
  map snd (filter (fun kv => fst kv =?s p) l).
Lemma qs_fold p l : forall d,
  dget p (fold_left qs_add l d) =
  match values_of p l, dget p d with
  | [], o => o
  | vs, None => Some vs
  | vs, Some ws => Some (ws ++ vs)%list
  end.
Proof.
  induction l as [|[k v] l IH]; intros d; cbn [fold_left].
  - unfold values_of. cbn. now destruct (dget p d).
  - rewrite IH. unfold values_of at 2. cbn [filter fst]. unfold qs_add. cbn [fst snd]. rewrite dget_dset.
    destruct (String.eqb_spec k p).
    + subst. cbn [map snd]. fold (values_of p l). destruct (values_of p l) as [|x r]; destruct (dget p d) as [ws|]; cbn; auto.
      now rewrite <- app_assoc.
    + fold (values_of p l). now destruct (values_of p l).
Qed.
Lemma parse_qs_values p s : dget p (parse_qs s) = match values_of p (parse_qsl s) with [] => None | vs => Some vs end.
Proof. unfold parse_qs. rewrite qs_fold. cbn. now destruct (values_of p (parse_qsl s)). Qed.

Lemma values_app p l m : values_of p (l ++ m) = values_of p l ++ values_of p m.
Proof. unfold values_of. now rewrite filter_app, map_app. Qed.
Lemma filter_comm {A} (f g : A -> bool) l : filter f (filter g l) = filter g (filter f l).
Proof. induction l as [|x l IH]; cbn; [reflexivity|]. destruct (g x) eqn:G, (f x) eqn:F; cbn; rewrite ?G, ?F, IH; reflexivity. Qed.
Lemma qs_param_keys c kv p : fst kv <> p -> values_of p (qs_param c kv) = [].
Proof.
  destruct kv as [k v]. cbn [fst]. intros H. unfold values_of, qs_param.
  assert (E : (k =?s p) = false) by now apply eqb_neq.
  assert (G : forall l : list val, filter (fun kv : string * string => fst kv =?s p) (map (fun w => (k, str_val w)) l) = []).
  { induction l as [|y l IH]; cbn [map filter fst]; [reflexivity|]. now rewrite E, IH. }
  destruct v; try destruct (mem_str k (c_sp c)); try (cbn [filter map]; try (destruct (ser_param c _)); cbn [filter map fst]; rewrite ?E; reflexivity).
  now rewrite G.
Qed.
Lemma msg_pairs_absent c m p : dget p m = None -> values_of p (msg_pairs c m) = [].
Proof.
  unfold msg_pairs. induction m as [|[k v] m IH]; intros H; [reflexivity|]. cbn [flat_map]. rewrite values_app.
  cbn [dget] in H. destruct (String.eqb_spec k p); [discriminate|]. rewrite qs_param_keys by assumption. now apply IH.
Qed.
Lemma msg_pairs_values c m p v : NoDup (dkeys m) -> dget p m = Some v ->
  values_of p (msg_pairs c m) = map snd (qs_param c (p, v)).
Proof.
  unfold msg_pairs. induction m as [|[k w] m IH]; intros N H; [discriminate|]. cbn [flat_map]. rewrite values_app.
  inversion N as [|? ? Hx Hr]; subst. cbn [dget] in H. destruct (String.eqb_spec k p).
  - subst. injection H as ->. fold (msg_pairs c m). rewrite msg_pairs_absent by now apply dget_None_In.
    rewrite app_nil_r. unfold values_of, qs_param.
    assert (G : forall l : list val, map snd (filter (fun kv : string * string => fst kv =?s p) (map (fun w => (p, str_val w)) l)) =
                                     map snd (map (fun w => (p, str_val w)) l)).
    { induction l as [|y l IHl]; cbn [map filter fst]; [reflexivity|]. rewrite eqb_refl. cbn [map]. now rewrite IHl. }
    destruct v; try (cbn [filter map fst]; rewrite ?eqb_refl; reflexivity).
    destruct (mem_str p (c_sp c)); [cbn [filter fst]; now rewrite eqb_refl|apply G].
  - rewrite qs_param_keys by assumption. now apply IH.
Qed.
(** a string parameter of a message is the only value its form encoding has for it *)
Lemma encoded_param c m p v : NoDup (dkeys m) -> dget p m = Some (VStr v) -> v <> "" ->
  dget p (parse_qs (urlencode (msg_pairs c m))) = Some [v].
Proof.
  intros N H Hv. rewrite parse_qs_values, parse_urlencode.
  assert (E : values_of p (filter nonblank (msg_pairs c m)) = filter (fun s => negb (s =?s "")) (values_of p (msg_pairs c m))).
  { unfold values_of. rewrite filter_comm. generalize (filter (fun kv : string * string => fst kv =?s p) (msg_pairs c m)).
    induction l as [|[k w] l IH]; cbn; [reflexivity|]. unfold nonblank at 1. cbn. destruct (w =?s ""); cbn; now rewrite IH. }
  rewrite E, (msg_pairs_values _ _ _ _ N H). cbn. now rewrite (eqb_neq _ _ Hv).
Qed.
Lemma encoded_absent c m p : dget p m = None -> dget p (parse_qs (urlencode (msg_pairs c m))) = None.
Proof.
  intros H. rewrite parse_qs_values, parse_urlencode. unfold values_of. rewrite filter_comm.
  assert (E : filter (fun kv : string * string => fst kv =?s p) (msg_pairs c m) = []).
  { pose proof (msg_pairs_absent c m p H) as X. unfold values_of in X.
    destruct (filter (fun kv : string * string => fst kv =?s p) (msg_pairs c m)); [reflexivity|discriminate]. }
  now rewrite E.
Qed.

(** ** no parameter twice *)
Lemma msg_from_dict_NoDup c d : forall m m', NoDup (dkeys m) -> msg_from_dict c d m = Ok m' -> NoDup (dkeys m').
Proof.
  induction d as [|[k v] d IH]; intros m m' N H; cbn in H; [now injection H as <-|].
  destruct (skipped v); [eauto|]. destruct (msg_set c k v m) eqn:E; [|discriminate].
  apply msg_set_get in E. destruct E as (w & _ & ->). eapply IH; [|exact H]. now apply NoDup_dset.
Qed.
Lemma msg_new_NoDup c d m : NoDup (dkeys (c_default c)) -> msg_new c d = Ok m -> NoDup (dkeys m).
Proof. apply msg_from_dict_NoDup. Qed.
Lemma NoDup_ddel' {A} k (d : dict A) : NoDup (dkeys d) -> NoDup (dkeys (ddel k d)).
Proof. apply NoDup_ddel. Qed.
Lemma NoDup_dsetdefault {A} k (v : A) d : NoDup (dkeys d) -> NoDup (dkeys (dsetdefault k v d)).
Proof. unfold dsetdefault. destruct (dhas k d); [auto|now apply NoDup_dset]. Qed.
Lemma dget_dsetdefault {A} k k' (v : A) d :
  dget k' (dsetdefault k v d) = match dget k' d with Some w => Some w | None => if k =?s k' then Some v else None end.
Proof.
  unfold dsetdefault, dhas. destruct (dget k d) eqn:E.
  - destruct (dget k' d) eqn:E'; [reflexivity|]. destruct (String.eqb_spec k k'); [congruence|reflexivity].
  - rewrite dget_dset. destruct (String.eqb_spec k k'); [subst; now rewrite E|]. now destruct (dget k' d).
Qed.
Lemma fill_params_NoDup orig it ps : forall args, NoDup (dkeys args) -> NoDup (dkeys (fill_params orig it args ps)).
Proof.
  unfold fill_params. induction ps as [|p ps IH]; intros args N; [assumption|]. cbn [fold_left]. apply IH.
  unfold fill_param. destruct orig; repeat (destruct (dget _ it)); auto using NoDup_dset.
Qed.
Lemma extend_NoDup d args c t k ps orig r : NoDup (dkeys args) -> extend_request_args d args c t k ps orig = Ok r -> NoDup (dkeys r).
Proof.
  intros N. unfold extend_request_args. destruct (get_item d c t k) as [it|e].
  - intros [= <-]. now apply fill_params_NoDup.
  - destruct e; intros H; try discriminate; now injection H as <-.
Qed.
Lemma mult_extend_NoDup d args k ps typs orig r : NoDup (dkeys args) ->
  multiple_extend_request_args d args k ps typs orig = Ok r -> NoDup (dkeys r).
Proof.
  unfold multiple_extend_request_args. destruct (get_state d k) as [st|]; [|discriminate]. revert args.
  induction typs as [|t typs IH]; intros args N H; cbn in H; [now injection H as <-|].
  destruct (dget t st) as [[| | | | |i]|]; try discriminate; [|eauto].
  destruct (msg_new cMessage i); [|discriminate]. eapply IH; [|exact H]. now apply fill_params_NoDup.
Qed.

(** ** client authentication leaves the other parameters alone *)
Definition authn_params : list string :=
  ["client_id"; "client_secret"; "client_assertion"; "client_assertion_type"; "access_token"; "refresh_token"].
Lemma dget_ddel_other {A} k p (d : dict A) : k <> p -> dget p (ddel k d) = dget p d.
Proof. intros. now apply dget_ddel_neq. Qed.
Lemma find_token_frame c kwargs ty req t r p : find_token c kwargs ty req = Ok (t, r) -> p <> ty ->
  dget p r = dget p req /\ (NoDup (dkeys req) -> NoDup (dkeys r)).
Proof.
  intros H Hp. split; [eapply find_token_other; eauto|].
  unfold find_token, rbind in H. repeat (dmH H; try discriminate H); injection H as <- <-; auto using NoDup_ddel'.
Qed.
Lemma with_or_without_frame cls atr c req r p : with_or_without_client_id cls atr c req = Ok r -> p <> "client_id" ->
  dget p r = dget p req /\ (NoDup (dkeys req) -> NoDup (dkeys r)).
Proof.
  intros H Hp. unfold with_or_without_client_id in H.
  assert (A : forall v, dget p (dset "client_id" v req) = dget p req) by (intros; rewrite dget_dset_neq by congruence; reflexivity).
  assert (B : dget p (ddel "client_id" req) = dget p req) by (rewrite dget_ddel_other by congruence; reflexivity).
  repeat (dmH H; try discriminate H); injection H as <-; split; auto using NoDup_dset, NoDup_ddel'.
Qed.
Lemma authenticate_frame E meth sn cls atr c kwargs ha req ha' r p :
  authenticate E meth sn cls atr c kwargs ha req = Ok (ha', r) -> ~ In p authn_params ->
  dget p r = dget p req /\ (NoDup (dkeys req) -> NoDup (dkeys r)).
Proof.
  intros H Hp. assert (P : forall q, In q authn_params -> q <> p) by (intros q Hq ->; contradiction).
  unfold authenticate in H.
  destruct (meth =?s "client_secret_basic").
  { unfold client_secret_basic, basic_modify, rbind in H.
    destruct (get_user c kwargs); try discriminate H. destruct (get_passwd c req kwargs); try discriminate H.
    destruct (with_or_without_client_id cls atr c (ddel "client_secret" req)) eqn:E1; [|discriminate H].
    injection H as _ <-. destruct (with_or_without_frame _ _ _ _ _ p E1) as [G N]; [apply not_eq_sym, P; cbn; auto|].
    rewrite G. rewrite dget_ddel_other by (apply P; cbn; auto). auto using NoDup_ddel'. }
  destruct (meth =?s "client_secret_post").
  { unfold client_secret_post, post_modify, rbind in H.
    assert (S : forall v (m : msg), dget p (dset "client_secret" v m) = dget p m) by (intros; apply dget_dset_neq, P; cbn; auto).
    assert (I : forall v (m : msg), dget p (dset "client_id" v m) = dget p m) by (intros; apply dget_dset_neq, P; cbn; auto).
    brk; rewrite ?I, ?S; auto 6 using NoDup_dset. }
  destruct (meth =?s "bearer_header").
  { unfold bearer_header, rbind in H.
    destruct (find_token c kwargs (if sn =?s "refresh_token" then "refresh_token" else "access_token") req) as [[t r1]|] eqn:E1; [|discriminate].
    repeat (dmH H; try discriminate H); injection H as _ <-; eapply find_token_frame; eauto; apply not_eq_sym, P; cbn;
      destruct (sn =?s "refresh_token"); auto 8. }
  destruct (meth =?s "bearer_body").
  { unfold bearer_body, rbind in H.
    destruct (find_token c kwargs "access_token" req) as [[t r1]|] eqn:E1; [|discriminate].
    destruct (find_token_frame _ _ _ _ _ _ p E1) as [G1 N1]; [apply not_eq_sym, P; cbn; auto 8|].
    assert (S : forall v (m : msg), dget p (dset "access_token" v m) = dget p m) by (intros; apply dget_dset_neq, P; cbn; auto 8).
    destruct (truthy t) eqn:Et.
    - rewrite Et in H. injection H as _ <-. rewrite S, G1. auto using NoDup_dset.
    - destruct (find_token c kwargs "refresh_token" r1) as [[t2 r2]|] eqn:E2; [|discriminate].
      destruct (find_token_frame _ _ _ _ _ _ p E2) as [G2 N2]; [apply not_eq_sym, P; cbn; auto 8|].
      destruct (truthy t2); [|discriminate]. injection H as _ <-. rewrite S, G2, G1. auto using NoDup_dset. }
  destruct (_ || _); [|discriminate].
  unfold jws_authn, jws_modify, rbind in H.
  assert (S : forall v (m : msg), dget p (dset "client_assertion" v m) = dget p m) by (intros; apply dget_dset_neq, P; cbn; auto 8).
  assert (T : forall v (m : msg), dget p (dset "client_assertion_type" v m) = dget p m) by (intros; apply dget_dset_neq, P; cbn; auto 8).
  assert (D : forall v (m : msg), dget p (dsetdefault "client_assertion_type" v m) = dget p m).
  { intros. rewrite dget_dsetdefault. rewrite (eqb_neq "client_assertion_type" p) by (apply P; cbn; auto 8). now destruct (dget p m). }
  assert (X : forall m : msg, dget p (ddel "client_secret" m) = dget p m) by (intros; apply dget_ddel_other, P; cbn; auto 8).
  assert (Y : forall m : msg, dget p (ddel "client_id" m) = dget p m) by (intros; apply dget_ddel_other, P; cbn; auto 8).
  brk; destruct (mem_str "client_id" (c_req cls)); (split; [rewrite ?Y, ?X, ?T, ?S, ?D, ?T, ?S; reflexivity|]);
    auto 8 using NoDup_dset, NoDup_ddel', NoDup_dsetdefault.
Qed.

Lemma get_headers_frame E s req hm au kw c h r c' p : s_extra s = [] ->
  get_headers E s req hm au kw c = (Ok (h, r), c') -> ~ In p authn_params ->
  c' = c /\ dget p r = dget p req /\ (NoDup (dkeys req) -> NoDup (dkeys r)).
Proof.
  intros He. unfold get_headers, bind, asks, ret. rewrite He. cbn [run_headers]. unfold ret. intros H Hp.
  match type of H with context [get_authn_header ?a ?b ?d ?e ?f ?g] => destruct (get_authn_header a b d e f g) as [[h1 r1]|] eqn:E1 end; [|discriminate].
  cbn [fst snd] in H. injection H as <- <- <-. split; [reflexivity|].
  unfold get_authn_header, rbind in E1. destruct (_ =?s ""); [injection E1 as <- <-; auto|].
  match type of E1 with context [authenticate ?a ?b ?d ?e ?f ?g ?i ?j ?k] => destruct (authenticate a b d e f g i j k) as [[h2 r2]|] eqn:E2 end; [|discriminate].
  injection E1 as <- <-. eapply authenticate_frame; eauto.
Qed.

(** ** construct *)
Definition state_default (s : service) (kw args : dict val) : dict val :=
  match dget "state" kw with
  | Some v => if mem_str "state" (c_par (s_cls s)) then dsetdefault "state" v args else args
  | None => args
  end.
Definition post_args (kw post : dict val) : dict val :=
  match dget "behaviour_args" kw with Some (VDict b) => dupdate post b | _ => post end.
Lemma construct_inv s args kw c req c' : construct s args kw c = (Ok req, c') ->
  exists a1 post c1 out req0,
    do_pre_construct s args kw c = (Ok (a1, post), c1) /\
    gather_request_args s c1 (state_default s kw a1) = Ok out /\
    msg_new (s_cls s) out = Ok req0 /\
    do_post_construct s req0 (post_args kw post) c1 = (Ok req, c').
Proof.
  unfold construct, bind, lift. intros H.
  destruct (do_pre_construct s args kw c) as [[[a1 post]|] c1] eqn:E1; [|discriminate].
  fold (state_default s kw a1) in H. fold (post_args kw post) in H.
  destruct (gather_request_args s c1 (state_default s kw a1)) as [out|] eqn:E2; [|discriminate].
  destruct (msg_new (s_cls s) out) as [req0|] eqn:E3; [|discriminate].
  exists a1, post, c1, out, req0. auto.
Qed.
Lemma gather_any s c args out : s_gather s = no_gather -> gather_request_args s c args = Ok out ->
  (NoDup (dkeys args) -> NoDup (dkeys out)) /\ forall p v, dget p args = Some v -> dget p out = Some v.
Proof.
  intros Hg H. destruct (gather_spec _ _ _ _ Hg H) as [N G]. split; [exact N|]. intros p v. apply G.
Qed.

(** ** do_request *)
Lemma do_request_inv E http jwt s rbt args au kw c r c' : do_request E http jwt s rbt args au kw c = (r, c') ->
  (exists e, get_request_parameters E s args "" "" au kw c = (Err e, c') /\ r = Err e) \/
  (exists i c1, get_request_parameters E s args "" "" au kw c = (Ok i, c1) /\
     service_request http jwt s (i_url i) (i_method i) (i_body i) (if rbt =?s "" then s_resp_type s else rbt) (i_headers i)
       (Some (match dget "state" kw with Some (VStr x) => x | _ => "" end)) c1 = (r, c')).
Proof.
  unfold do_request, bind. intros H. destruct (get_request_parameters E s args "" "" au kw c) as [[i|e] c1].
  - right. exists i, c1. auto.
  - left. exists e. injection H as <- <-. auto.
Qed.
