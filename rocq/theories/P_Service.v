(** Lemmas about M_Service.v *)
From Verif Require Import Base BaseP Json JsonP Msg M_State S_State P_State M_Ctx M_Codec M_Authz M_ClientAuth
  M_Service M_Token S_Service P_Ctx P_Codec.

(** ** messages built from dictionaries *)
Lemma msg_set_get c k v m m' : msg_set c k v m = Ok m' ->
  exists w, shown c k v = Some w /\ m' = dset k w m.
Proof.
  unfold msg_set, shown. intros H. repeat (dmH H; try discriminate); injection H as <-; eauto.
Qed.
Lemma from_dict_get c d : forall m m', NoDup (dkeys d) -> msg_from_dict c d m = Ok m' -> forall k,
  dget k m' = match dget k d with
              | Some v => if skipped v then dget k m else shown c k v
              | None => dget k m
              end.
Proof.
  induction d as [|[k0 v0] d IH]; intros m m' Hn H k; simpl in *; [now injection H as <-|].
  inversion Hn as [|? ? Hx Hr]; subst.
  destruct (skipped v0) eqn:Es.
  - rewrite (IH _ _ Hr H). destruct (String.eqb_spec k0 k); [|reflexivity]. subst.
    rewrite Es. destruct (dget k d) eqn:E; [|reflexivity]. exfalso. apply Hx. apply dhas_In. unfold dhas. now rewrite E.
  - destruct (msg_set c k0 v0 m) eqn:E; [|discriminate]. apply msg_set_get in E. destruct E as (w & Hw & ->).
    rewrite (IH _ _ Hr H). destruct (String.eqb_spec k0 k).
    + subst. rewrite Es. destruct (dget k d) eqn:E; [exfalso; apply Hx; apply dhas_In; unfold dhas; now rewrite E|].
      now rewrite dget_dset_eq.
    + now rewrite dget_dset_neq by congruence.
Qed.
Lemma msg_new_get c d m : NoDup (dkeys d) -> msg_new c d = Ok m -> forall k,
  dget k m = match dget k d with
             | Some v => if skipped v then dget k (c_default c) else shown c k v
             | None => dget k (c_default c)
             end.
Proof. intros. now apply from_dict_get. Qed.

(** ** gathering request arguments *)
Lemma first_truthy_usable l : first_usable l (first_truthy l).
Proof.
  unfold first_truthy. induction l as [|[v|] r IH]; simpl; [constructor| |now constructor].
  destruct (truthy v) eqn:E; now constructor.
Qed.
Lemma first_usable_fun l : forall o o', first_usable l o -> first_usable l o' -> o = o'.
Proof. induction l as [|x r IH]; intros o o' H H'; inversion H; inversion H'; subst; try congruence; auto; eapply IH; try eassumption; congruence. Qed.

Lemma gather_loop_get s c ps : forall args out, gather_loop s c ps args = Ok out ->
  (NoDup (dkeys args) -> NoDup (dkeys out)) /\
  forall p, dget p out = match dget p args with
                         | Some v => Some v
                         | None => if mem_str p ps then gathered s c p else None
                         end.
Proof.
  induction ps as [|q ps IH]; intros args out H; simpl in H.
  - injection H as <-. split; [auto|]. intros p. now destruct (dget p args).
  - destruct (dhas q args) eqn:Eq.
    + destruct (IH _ _ H) as [N G]. split; [exact N|]. intros p. rewrite G.
      destruct (dget p args) eqn:E; [reflexivity|]. cbn [mem_str existsb].
      destruct (String.eqb_spec p q) as [->|]; [|reflexivity].
      unfold dhas in Eq. now rewrite E in Eq.
    + destruct (q =?s "state"); [discriminate|]. destruct (IH _ _ H) as [N G]. split.
      * intros Hn. apply N. destruct (gathered s c q); [now apply NoDup_dset|assumption].
      * intros p. rewrite G. unfold dhas in Eq.
        destruct (dget q args) eqn:Eqa; [discriminate|]. cbn [mem_str existsb].
        destruct (String.eqb_spec p q) as [->|Hne].
        -- destruct (gathered s c q) eqn:Eg.
           ++ rewrite dget_dset_eq. now rewrite Eqa.
           ++ rewrite Eqa. cbn. now destruct (mem_str q ps).
        -- destruct (gathered s c q); [now rewrite dget_dset_neq by congruence|reflexivity].
Qed.
Lemma gathered_spec s c p : first_usable
  [ctx_get c p; dget p (conf_request_args s); dget p (register_args c); dget p (s_defaults s); dget p (behaviour c)]
  (gathered s c p).
Proof. apply first_truthy_usable. Qed.

Lemma gather_spec s c args out : s_gather s = no_gather -> gather_request_args s c args = Ok out ->
  (NoDup (dkeys args) -> NoDup (dkeys out)) /\ forall p,
  (forall v, dget p args = Some v -> dget p out = Some v) /\
  (dget p args = None -> In p (c_par (s_cls s)) -> first_usable
     [ctx_get c p; dget p (conf_request_args s); dget p (register_args c); dget p (s_defaults s); dget p (behaviour c)]
     (dget p out)) /\
  (dget p args = None -> ~ In p (c_par (s_cls s)) -> dget p out = None).
Proof.
  intros Hg. unfold gather_request_args. rewrite Hg. intros H.
  destruct (gather_loop s c (c_par (s_cls s)) args) eqn:E; [|discriminate]. injection H as <-.
  destruct (gather_loop_get _ _ _ _ _ E) as [N G]. split; [exact N|]. intros p. rewrite G. repeat split.
  - intros v ->. reflexivity.
  - intros -> Hp. apply mem_str_In in Hp. rewrite Hp. apply gathered_spec.
  - intros -> Hp. destruct (mem_str p (c_par (s_cls s))) eqn:Em; [|reflexivity]. apply mem_str_In in Em. contradiction.
Qed.

(** construct for a service without hooks of its own *)
Lemma construct_plain s args kwargs c req c' :
  s_pre s = [] -> s_post s = [] ->
  construct s args kwargs c = (Ok req, c') ->
  c' = c /\ exists out, gather_request_args s c (match dget "state" kwargs with
               | Some v => if mem_str "state" (c_par (s_cls s)) then dsetdefault "state" v args else args
               | None => args
               end) = Ok out /\ msg_new (s_cls s) out = Ok req.
Proof.
  intros H1 H2. unfold construct, do_pre_construct, do_post_construct, bind, lift, ret. rewrite H1, H2. cbn [run_pre run_post].
  unfold ret. intros H. destruct (gather_request_args s c _) eqn:E; [|discriminate].
  destruct (msg_new (s_cls s) a) eqn:E2; [|discriminate]. injection H as <- <-. eauto.
Qed.

(** ** URLs *)
Lemma urlsplit_plain u : char_in "?"%char u = false -> char_in "#"%char u = false -> urlsplit u = mkurl u "" "".
Proof.
  intros H1 H2. unfold urlsplit. rewrite (proj2 (split1_None _ _) H2). now rewrite (proj2 (split1_None _ _) H1).
Qed.
Lemma urlsplit_parts s : char_in "#"%char (u_query (urlsplit s)) = false /\
  char_in "?"%char (u_base (urlsplit s)) = false /\ char_in "#"%char (u_base (urlsplit s)) = false.
Proof.
  unfold urlsplit. destruct (split1 "#"%char s) as [[a b]|] eqn:E.
  - apply split1_Some in E. destruct E as [_ Ha].
    destruct (split1 "?"%char a) as [[x y]|] eqn:E2; cbn [u_query u_base].
    + apply split1_Some in E2. destruct E2 as [-> Hx]. rewrite char_in_app in Ha. apply orb_false_iff in Ha.
      destruct Ha as [Ha Hb]. simpl in Hb. auto.
    + apply split1_None in E2. auto.
  - apply split1_None in E.
    destruct (split1 "?"%char s) as [[x y]|] eqn:E2; cbn [u_query u_base].
    + apply split1_Some in E2. destruct E2 as [-> Hx]. rewrite char_in_app in E. apply orb_false_iff in E.
      destruct E as [Ha Hb]. simpl in Hb. auto.
    + apply split1_None in E2. auto.
Qed.
Lemma split1_at c a b : char_in c a = false -> split1 c (a ++ String c b)%string = Some (a, b).
Proof. intros H. now apply split1_Some. Qed.
Lemma urlsplit_unsplit b q f : char_in "?"%char b = false -> char_in "#"%char b = false -> char_in "#"%char q = false ->
  urlsplit (urlunsplit (mkurl b q f)) = mkurl b q f.
Proof.
  intros H1 H2 H3. unfold urlunsplit. cbn [u_base u_query u_fragment].
  assert (Hq : forall x, urlsplit (b ++ (if q =?s "" then "" else "?" ++ q) ++ x)%string =
     urlsplit (b ++ (if q =?s "" then "" else "?" ++ q) ++ x)%string) by reflexivity.
  assert (N : char_in "#"%char (b ++ (if q =?s "" then "" else "?" ++ q))%string = false).
  { rewrite char_in_app, H2. destruct (q =?s ""); [reflexivity|]. simpl. exact H3. }
  assert (P : forall t, (if q =?s "" then "" else "?" ++ q)%string = t ->
      match split1 "?"%char (b ++ t)%string with Some (a, y) => (a, y) | None => ((b ++ t)%string, "") end = (b, q)).
  { intros t <-. destruct (String.eqb_spec q "").
    - subst. rewrite sapp_nil. now rewrite (proj2 (split1_None _ _) H1).
    - cbn [append]. now rewrite (split1_at "?"%char b q H1). }
  unfold urlsplit. destruct (String.eqb_spec f "").
  - subst. rewrite sapp_nil. rewrite (proj2 (split1_None _ _) N).
    now rewrite (P _ eq_refl).
  - rewrite <- sapp_assoc. change ("#" ++ f)%string with (String "#"%char f). rewrite (split1_at _ _ _ N).
    now rewrite (P _ eq_refl).
Qed.
Lemma urlencode_no_hash l : char_in "#"%char (urlencode l) = false.
Proof.
  unfold urlencode. induction l as [|[k v] r IH]; [reflexivity|]. cbn [map join].
  assert (E : char_in "#"%char (enc_pair (k, v)) = false).
  { unfold enc_pair. cbn [fst snd]. rewrite !char_in_app, !quote_no by reflexivity. reflexivity. }
  destruct (map enc_pair r) eqn:Em; [exact E|]. rewrite !char_in_app, E. cbn [orb]. exact IH.
Qed.

Lemma http_url_get u c req meth r : mem_str meth ["GET"; "DELETE"] = true -> req <> [] ->
  get_http_url u c req meth = Ok r ->
  missing_required c (with_query u req) = false /\
  u_base (urlsplit r) = u_base (urlsplit u) /\ u_fragment (urlsplit r) = u_fragment (urlsplit u) /\
  u_query (urlsplit r) = urlencode (msg_pairs c (with_query u req)).
Proof.
  intros Hm Hr. unfold get_http_url. rewrite Hm. destruct req as [|x l]; [easy|].
  fold (with_query u (x :: l)). unfold msg_to_urlencoded.
  destruct (missing_required c (with_query u (x :: l))) eqn:E; [discriminate|]. cbn [rbind]. intros H. injection H as <-.
  destruct (urlsplit_parts u) as (_ & B1 & B2).
  rewrite urlsplit_unsplit; auto using urlencode_no_hash.
Qed.
Lemma http_url_other u c req meth : mem_str meth ["GET"; "DELETE"] = false -> get_http_url u c req meth = Ok u.
Proof. unfold get_http_url. now intros ->. Qed.

(** ** get_request_parameters *)
Lemma grp_inv E s args m bt au kw c i c' : get_request_parameters E s args m bt au kw c = (Ok i, c') ->
  let method := if m =?s "" then s_http_method s else m in
  let btype := if bt =?s "" then s_req_type s else bt in
  exists req0 c1 h req1 ep,
    construct s args kw c = (Ok req0, c1) /\
    get_headers E s req0 method (if au =?s "" then s_authn s c else au)
      (if issuer c1 =?s "" then kw else dset "iss" (VStr (issuer c1)) kw) c1 = (Ok (h, req1), c') /\
    match dget "endpoint" kw with Some v => Ok v | None => get_endpoint s c' end = Ok (VStr ep) /\
    i_method i = method /\ i_request i = req1 /\
    get_http_url ep (sent_cls s (if au =?s "" then s_authn s c else au) req0) req1 method = Ok (i_url i) /\
    (if method =?s "POST"
     then exists b, get_http_body (sent_cls s (if au =?s "" then s_authn s c else au) req0) req1 (body_content_type btype) = Ok b /\ i_body i = Some b /\
                    i_headers i = dset "Content-Type" (body_content_type btype) h
     else i_body i = None /\ i_headers i = h).
Proof.
  unfold get_request_parameters, bind, lift, asks, ret. intros H.
  destruct (construct s args kw c) as [[req0|] c1] eqn:E1; [|discriminate].
  dmH H. destruct r as [[h req1]|]; [|discriminate].
  exists req0, c1, h, req1.
  destruct (dget "endpoint" kw) as [v|] eqn:Ee.
  - destruct v; try discriminate. exists s0. destruct (get_http_url _ _ _ _) eqn:Eu; [|discriminate].
    destruct ((if m =?s "" then s_http_method s else m) =?s "POST") eqn:Ep.
    + destruct (get_http_body _ _ _) eqn:Eb; [|discriminate]. injection H as <- <-. cbv zeta. cbn [i_method i_request i_url i_body i_headers]. eauto 12.
    + injection H as <- <-. cbv zeta. cbn [i_method i_request i_url i_body i_headers]. eauto 12.
  - destruct (get_endpoint s c0) as [v|] eqn:Eg; [|discriminate].
    destruct v; try discriminate. exists s0. destruct (get_http_url _ _ _ _) eqn:Eu; [|discriminate].
    destruct ((if m =?s "" then s_http_method s else m) =?s "POST") eqn:Ep.
    + destruct (get_http_body _ _ _) eqn:Eb; [|discriminate]. injection H as <- <-. cbv zeta. cbn [i_method i_request i_url i_body i_headers]. eauto 12.
    + injection H as <- <-. cbv zeta. cbn [i_method i_request i_url i_body i_headers]. eauto 12.
Qed.

(** ** parsing responses *)


Lemma parse_response_spec jwt s inf fmt st c r c' : reads_only (s_post_parse s) ->
  parse_response jwt s inf fmt st c = (r, c') ->
  c' = c /\ forall m, r = Ok m -> m <> [] /\ (is_error_message m = true \/ accepted s c m).
Proof.
  intros Hro. unfold parse_response, bind, lift, ret, raise. intros H.
  destruct (mem_str _ _); [injection H as <- <-; split; [reflexivity|discriminate]|].
  match type of H with context [match ?x with Ok _ => _ | Err _ => _ end] => destruct x as [m0|e] eqn:E end;
    [|injection H as <- <-; split; [reflexivity|discriminate]].
  destruct (is_error_message m0) eqn:Ee.
  - destruct m0; injection H as <- <-; (split; [reflexivity|]); [discriminate|].
    intros m' Hm'. injection Hm' as <-. split; [easy|auto].
  - destruct (s_vrf s c m0) as [v|] eqn:Ev; [|injection H as <- <-; split; [reflexivity|discriminate]].
    destruct (s_post_parse s v st c) as [[m|] c2] eqn:Ep; pose proof (Hro _ _ _ _ _ Ep); subst c2.
    + destruct m; injection H as <- <-; (split; [reflexivity|]); [discriminate|].
      intros m' Hm'. injection Hm' as <-. split; [easy|]. right. exists m0, v, st. auto.
    + injection H as <- <-. split; [reflexivity|discriminate].
Qed.

Lemma prr_spec jwt s h rbt st c r c' : reads_only (s_post_parse s) ->
  parse_request_response jwt s h rbt st c = (r, c') ->
  c' = c /\
  match r with
  | Ok (RMsg m) =>
      (zmem (h_status h) SUCCESSFUL = true /\ m <> [] /\ (is_error_message m = true \/ accepted s c m)) \/
      ((400 <= h_status h < 500)%Z /\ exists m1, m = dset "status_code" (VInt (h_status h)) m1 /\
         (is_error_message m1 = true \/ accepted s c m1))
  | Ok (RHttp h') => h' = h /\ In (h_status h) [302; 303]%Z
  | Ok (RText _) => False
  | Err e => (h_status h = 500%Z -> e = ParseError) /\
      (zmem (h_status h) (SUCCESSFUL ++ [302; 303; 500]%Z) = false -> ~ (400 <= h_status h < 500)%Z -> e = OidcServiceError)
  end.
Proof.
  intros Hro. unfold parse_request_response. intros H.
  destruct (zmem (h_status h) SUCCESSFUL) eqn:E1.
  { unfold bind, ret in H. destruct (parse_response _ _ _ _ _ _) as [[m|e] c1] eqn:E;
      injection H as <- <-; destruct (parse_response_spec _ _ _ _ _ _ _ _ Hro E) as [-> Hm]; (split; [reflexivity|]).
    - left. destruct (Hm _ eq_refl). auto.
    - split.
      + intros Hz. rewrite Hz in E1. discriminate.
      + unfold zmem in *. rewrite existsb_app, E1. discriminate. }
  destruct (zmem (h_status h) [302; 303]%Z) eqn:E2.
  { injection H as <- <-. split; [reflexivity|]. split; [reflexivity|].
    unfold zmem in E2. simpl in E2. rewrite !orb_true_iff, !Z.eqb_eq in E2. simpl. intuition. }
  destruct (h_status h =? 500)%Z eqn:E3.
  { injection H as <- <-. split; [reflexivity|]. split; [auto|].
    intros Hz. unfold zmem in Hz. rewrite existsb_app in Hz. simpl in Hz. rewrite E3 in Hz.
    rewrite !orb_true_r in Hz. discriminate. }
  apply Z.eqb_neq in E3.
  destruct ((400 <=? h_status h) && (h_status h <? 500))%Z eqn:E4.
  - assert (B : (400 <= h_status h < 500)%Z) by lia.
    assert (forall e, (h_status h = 500%Z -> e = ParseError) /\
      (zmem (h_status h) (SUCCESSFUL ++ [302; 303; 500]%Z) = false -> ~ (400 <= h_status h < 500)%Z -> e = OidcServiceError)) as Herr
      by (intros; split; [lia|tauto]).
    destruct (parse_response jwt s (h_text h) _ "" c) as [[m|e] c1] eqn:E;
      destruct (parse_response_spec _ _ _ _ _ _ _ _ Hro E) as [-> Hm].
    + injection H as <- <-. split; [reflexivity|]. right. split; [exact B|]. exists m. destruct (Hm _ eq_refl). auto.
    + destruct e; try (injection H as <- <-; split; [reflexivity|apply Herr]).
      * injection H as <- <-. split; [reflexivity|]. right. split; [exact B|]. exists [("error", VStr (h_text h))]. split; [reflexivity|left; reflexivity].
      * destruct (_ =?s rbt); [injection H as <- <-; split; [reflexivity|apply Herr]|].
        destruct (parse_response jwt s (h_text h) rbt "" c) as [[m|e] c2] eqn:E';
          destruct (parse_response_spec _ _ _ _ _ _ _ _ Hro E') as [-> Hm'].
        -- injection H as <- <-. split; [reflexivity|]. right. split; [exact B|]. exists m. destruct (Hm' _ eq_refl). auto.
        -- destruct e; injection H as <- <-; split; try reflexivity; apply Herr.
  - injection H as <- <-. split; [reflexivity|]. split; [lia|auto].
Qed.

Lemma get_response_spec http jwt s u m b rbt h st c r c' : reads_only (s_post_parse s) ->
  get_response http jwt s u m b rbt h st c = (r, c') ->
  c' = c /\
  match r with
  | Err e => http u m b h = Err e \/ exists resp, http u m b h = Ok resp
  | Ok x => exists resp, http u m b h = Ok resp /\
     match x with
     | RMsg msg =>
        (zmem (h_status resp) SUCCESSFUL = true /\ msg <> [] /\ (is_error_message msg = true \/ accepted s c msg)) \/
        ((400 <= h_status resp < 500)%Z /\ exists m1, msg = dset "status_code" (VInt (h_status resp)) m1 /\
           (is_error_message m1 = true \/ accepted s c m1))
     | RHttp h' => h' = resp /\ (300 <= h_status resp < 400)%Z
     | RText t => t = h_text resp /\ (h_status resp < 300)%Z /\ (rbt = "html" \/ s_resp_type s = "html")
     end
  end.
Proof.
  intros Hro. unfold get_response. destruct (http u m b h) as [resp|e] eqn:Eh; intros H;
    [|injection H as <- <-; split; [reflexivity|auto]].
  destruct ((300 <=? h_status resp) && (h_status resp <? 400))%Z eqn:E3.
  { injection H as <- <-. split; [reflexivity|]. exists resp. repeat split; auto; lia. }
  destruct ((h_status resp <? 300)%Z && _) eqn:Eht.
  { injection H as <- <-. split; [reflexivity|]. exists resp. split; [reflexivity|].
    apply andb_true_iff in Eht. destruct Eht as [Ea Eb].
    repeat split; [lia|]. rewrite Ea in Eb. cbn [andb] in Eb. destruct (rbt =?s ""); apply eqb_true_iff in Eb; auto. }
  destruct (prr_spec _ _ _ _ _ _ _ _ Hro H) as [-> Hr]. split; [reflexivity|].
  destruct r as [[msg|t|h']|e]; [|contradiction| |right; eauto]; exists resp; (split; [reflexivity|]); auto.
  destruct Hr as [-> Hr]. split; [reflexivity|]. simpl in Hr. lia.
Qed.

Lemma service_request_spec http jwt s u m b rbt h state c r c' : reads_only (s_post_parse s) ->
  service_request http jwt s u m b rbt h state c = (r, c') ->
  (c' = c /\ match r with Ok (RMsg x) => dhas "error" x = true | _ => True end) \/
  (exists resp msg, http u m b h = Ok resp /\ dhas "error" msg = false /\
     ((zmem (h_status resp) SUCCESSFUL = true /\ accepted s c msg) \/
      ((400 <= h_status resp < 500)%Z /\ exists m1, accepted s c m1 /\ msg = dset "status_code" (VInt (h_status resp)) m1)) /\
     exists r0, s_update s msg (match state with Some x => x | None => "" end) c = (r0, c') /\
       r = match r0 with Ok x => Ok (RMsg x) | Err e => Err e end).
Proof.
  intros Hro. unfold service_request, bind. intros H.
  destruct (get_response http jwt s u m b rbt h _ c) as [r1 c1] eqn:E.
  destruct (get_response_spec _ _ _ _ _ _ _ _ _ _ _ _ Hro E) as [-> Hg].
  destruct r1 as [x|e]; [|injection H as <- <-; left; auto].
  destruct Hg as (resp & Hh & Hx).
  destruct (has_error x) eqn:Ee.
  { injection H as <- <-. left. split; [reflexivity|]. destruct x; auto. }
  destruct x as [msg|t|h'].
  - right. exists resp, msg. split; [exact Hh|]. cbn [has_error] in Ee. split; [exact Ee|]. split.
    + destruct Hx as [(H1 & H2 & [H3|H3])|(H1 & m1 & H2 & [H3|H3])]; auto.
      * unfold is_error_message in H3. congruence.
      * exfalso. unfold is_error_message in H3. subst msg. rewrite dhas_dset, H3 in Ee. now rewrite orb_true_r in Ee.
      * right. split; [exact H1|]. eauto.
    + unfold ret in H. destruct (s_update s msg _ c) as [[y|e] c2] eqn:Eu; injection H as <- <-; eexists; eauto.
  - injection H as <- <-. left. auto.
  - destruct (s_redirect s); injection H as <- <-; left; auto.
Qed.

(** ** no assumption on post_parse_response: the context changes only after some
    non-error message was verified *)
Lemma parse_response_changes jwt s inf fmt st c r c' :
  parse_response jwt s inf fmt st c = (r, c') -> c' = c \/ verified_ok s c.
Proof.
  unfold parse_response, bind, lift, ret, raise. intros H.
  destruct (mem_str _ _); [injection H as <- <-; auto|].
  match type of H with context [match ?x with Ok _ => _ | Err _ => _ end] => destruct x as [m0|e] eqn:E end;
    [|injection H as <- <-; auto].
  destruct (is_error_message m0) eqn:Ee.
  - destruct m0; injection H as <- <-; auto.
  - destruct (s_vrf s c m0) as [v|] eqn:Ev; [|injection H as <- <-; auto]. right. exists m0, v. auto.
Qed.
Lemma service_request_changes http jwt s u m b rbt h state c r c' :
  service_request http jwt s u m b rbt h state c = (r, c') -> c' = c \/ verified_ok s c.
Proof.
  unfold service_request, bind. intros H.
  destruct (get_response http jwt s u m b rbt h _ c) as [r1 c1] eqn:E.
  assert (A : (c1 = c /\ forall x, r1 = Ok (RMsg x) -> is_error_message x = true \/ verified_ok s c) \/ verified_ok s c).
  { clear H. unfold get_response in E. destruct (http u m b h) as [resp|e]; [|injection E as <- <-; left; split; [auto|discriminate]].
    destruct (_ && _)%bool; [injection E as <- <-; left; split; [auto|discriminate]|].
    destruct (_ && _)%bool; [injection E as <- <-; left; split; [auto|discriminate]|].
    unfold parse_request_response in E.
    assert (P : forall fmt st c0 r0 c2, parse_response jwt s (h_text resp) fmt st c0 = (r0, c2) ->
              (c2 = c0 /\ forall x, r0 = Ok x -> is_error_message x = true \/ verified_ok s c0) \/ verified_ok s c0).
    { intros fmt st c0 r0 c2 H. destruct (parse_response_changes _ _ _ _ _ _ _ _ H) as [->|]; [|auto].
      unfold parse_response, bind, lift, ret, raise in H.
      match type of H with context [if mem_str ?a ?b then _ else _] => destruct (mem_str a b) end; [injection H as <-; left; split; [auto|discriminate]|].
      match type of H with context [match ?x with Ok _ => _ | Err _ => _ end] => destruct x as [m0|e] eqn:E9 end;
        [|injection H as <-; left; split; [auto|discriminate]].
      destruct (is_error_message m0) eqn:Ee.
      - destruct m0; injection H as <-; left; (split; [auto|]); [discriminate|]. intros x [= <-]. auto.
      - destruct (s_vrf s c0 m0) as [v|] eqn:Ev; [|injection H as <-; left; split; [auto|discriminate]].
        right. exists m0, v. auto. }
    destruct (zmem _ SUCCESSFUL).
    { unfold bind, ret in E. destruct (parse_response _ _ _ _ _ _) as [[m1|e] c2] eqn:E5; injection E as <- <-;
        destruct (P _ _ _ _ _ E5) as [[-> Hx]|]; auto; left; (split; [auto|]); [|discriminate].
      intros x [= <-]. auto. }
    destruct (zmem _ _); [injection E as <- <-; left; split; [auto|discriminate]|].
    destruct (_ =? _)%Z; [injection E as <- <-; left; split; [auto|discriminate]|].
    destruct (_ && _)%bool; [|injection E as <- <-; left; split; [auto|discriminate]].
    assert (ST : forall x z, is_error_message (dset "status_code" z x) = is_error_message x).
    { intros. unfold is_error_message. rewrite dhas_dset. reflexivity. }
    destruct (parse_response _ _ _ _ _ c) as [[m1|e] c2] eqn:E5; destruct (P _ _ _ _ _ E5) as [[-> Hx]|]; auto.
    - injection E as <- <-. left. split; [auto|]. intros x [= <-]. rewrite ST. auto.
    - destruct e; try (injection E as <- <-; left; split; [auto|discriminate]).
      + injection E as <- <-. left. split; [auto|]. intros x [= <-]. left. reflexivity.
      + destruct (_ =?s _); [injection E as <- <-; left; split; [auto|discriminate]|].
        destruct (parse_response _ _ _ _ _ c) as [[m1|e] c2] eqn:E6; destruct (P _ _ _ _ _ E6) as [[-> Hx']|]; auto.
        * injection E as <- <-. left. split; [auto|]. intros x [= <-]. rewrite ST. auto.
        * left. destruct e; injection E as <- <-; (split; [auto|discriminate]). }
  destruct A as [[-> A]|A]; [|auto].
  destruct r1 as [x|e]; [|injection H as <- <-; auto].
  destruct (has_error x) eqn:Ee; [injection H as <- <-; auto|].
  destruct x as [msg|t|h'].
  - destruct (A _ eq_refl) as [A'|]; [|auto]. unfold is_error_message in A'. cbn in Ee. congruence.
  - injection H as <- <-. auto.
  - destruct (s_redirect s); injection H as <- <-; auto.
Qed.
