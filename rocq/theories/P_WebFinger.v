From Verif Require Import Base BaseP Json Msg M_State M_Ctx M_Codec P_Codec M_Provider M_WebFinger S_WebFinger.

Lemma all_chars_In f s : all_chars f s = true <-> forall c, In c (la s) -> f c = true.
Proof.
  induction s as [|a s IH]; cbn [all_chars la]. { split; [intros _ c []|reflexivity]. }
  rewrite andb_true_iff, IH. split.
  - intros [H1 H2] c [<-|Hc]; auto.
  - intros H. split; [apply H; now left|intros c Hc; apply H; now right].
Qed.
Lemma free_all bad s : free_of bad s <-> all_chars (fun c => negb (char_in c bad || unsafe c)) s = true.
Proof.
  rewrite all_chars_In. unfold free_of. split; intros H c Hc; specialize (H c Hc).
  - destruct H as [H1 H2]. apply negb_true_iff, orb_false_iff. split; [|exact H2].
    destruct (char_in c bad) eqn:E; [|reflexivity]. apply char_in_In in E. now destruct H1.
  - apply negb_true_iff, orb_false_iff in H. destruct H as [H1 H2]. split; [|exact H2].
    intros Hi. apply char_in_In in Hi. congruence.
Qed.
Lemma free_app bad a b : free_of bad (a ++ b)%string <-> free_of bad a /\ free_of bad b.
Proof. rewrite !free_all, all_chars_app, andb_true_iff. reflexivity. Qed.
Lemma free_sub bad bad' s : (forall c, In c (la bad') -> In c (la bad)) -> free_of bad s -> free_of bad' s.
Proof. intros Hs H c Hc. destruct (H c Hc) as [H1 H2]. split; auto. Qed.
Lemma free_char bad s c : free_of bad s -> In c (la bad) -> char_in c s = false.
Proof.
  intros H Hb. destruct (char_in c s) eqn:E; [|reflexivity]. apply char_in_In in E.
  destruct (H c E) as [H1 _]. now destruct H1.
Qed.
Lemma free_filter bad s : free_of bad s -> filter_str (fun c => negb (unsafe c)) s = s.
Proof.
  rewrite free_all. induction s as [|a s IH]; cbn [all_chars filter_str]; [reflexivity|].
  intros H. apply andb_true_iff in H. destruct H as [H1 H2].
  apply negb_true_iff, orb_false_iff in H1. destruct H1 as [_ ->]. cbn [negb]. now rewrite IH.
Qed.
Lemma filter_free s : free_of "" (filter_str (fun c => negb (unsafe c)) s).
Proof.
  apply free_all. induction s as [|a s IH]; cbn [filter_str]; [reflexivity|].
  destruct (unsafe a) eqn:E; cbn [negb]; [exact IH|]. cbn [all_chars]. rewrite E, IH. reflexivity.
Qed.
Lemma until_spec f s a b : until f s = (a, b) -> s = (a ++ b)%string /\ all_chars (fun c => negb (f c)) a = true.
Proof.
  revert a b. induction s as [|c s IH]; cbn [until]; intros a b H.
  { injection H as <- <-. now split. }
  destruct (f c) eqn:E. { injection H as <- <-. now split. }
  destruct (until f s) as [a' b'] eqn:E2. injection H as <- <-.
  destruct (IH _ _ eq_refl) as [-> H2]. split; [reflexivity|]. cbn [all_chars]. rewrite E. exact H2.
Qed.
Lemma until_app f a b : all_chars (fun c => negb (f c)) a = true ->
  (b = "" \/ exists c r, b = String c r /\ f c = true) -> until f (a ++ b) = (a, b).
Proof.
  intros Ha Hb. induction a as [|c a IH]; cbn [until append].
  - destruct Hb as [->|[c [r [-> Hc]]]]; [reflexivity|]. cbn [until]. now rewrite Hc.
  - cbn [all_chars] in Ha. apply andb_true_iff in Ha. destruct Ha as [H1 H2].
    apply negb_true_iff in H1. rewrite H1, (IH H2). reflexivity.
Qed.
Lemma cut_spec c u a b : cut c u = (a, b) -> char_in c a = false /\ (u = a /\ b = "" \/ u = (a ++ String c b)%string).
Proof.
  unfold cut. destruct (split1 c u) as [[x y]|] eqn:E; intros H; injection H as <- <-.
  - apply split1_Some in E. destruct E as [-> E]. split; [exact E|now right].
  - apply split1_None in E. split; [exact E|now left].
Qed.
Lemma cut_opt c a b : char_in c a = false -> cut c (a ++ opt (String c "") b) = (a, b).
Proof.
  intros H. unfold cut, opt. destruct (b =?s "") eqn:E.
  - apply eqb_true_iff in E. subst b. rewrite sapp_nil.
    destruct (split1 c a) as [[x y]|] eqn:E2; [|reflexivity].
    apply split1_Some in E2. destruct E2 as [-> _]. rewrite char_in_app in H. cbn [char_in] in H.
    rewrite Ascii.eqb_refl in H. apply orb_false_iff in H. destruct H as [_ H]. discriminate H.
  - assert (H2 : split1 c (a ++ (String c "" ++ b))%string = Some (a, b)) by (apply split1_Some; split; [reflexivity|exact H]).
    now rewrite H2.
Qed.

Lemma opt_free bad sep s : free_of bad sep -> free_of bad s -> free_of bad (opt sep s).
Proof. intros H1 H2. unfold opt. destruct (s =?s ""); [intros c []|]. apply free_app. now split. Qed.
Lemma opt_nil sep : opt sep "" = "". Proof. reflexivity. Qed.

Definition q_text (s : string) : Prop := free_of "#" s.
Definition f_text (s : string) : Prop := free_of "" s.

Ltac frees := repeat first [ apply free_app; split | apply opt_free
  | solve [apply free_all; reflexivity] | solve [eapply free_sub; [|eassumption]; cbn; tauto] ].

(** a path with its query and fragment is taken apart *)
Lemma cut_tail path q f : free_of "?#" path -> q_text q -> f_text f ->
  cut "#" (path ++ opt "?" q ++ opt "#" f) = ((path ++ opt "?" q)%string, f) /\
  cut "?" (path ++ opt "?" q) = (path, q).
Proof.
  intros Hp Hq Hf. split.
  - rewrite <- sapp_assoc. apply cut_opt. rewrite char_in_app. apply orb_false_iff. split.
    + eapply free_char; [exact Hp|cbn; tauto].
    + unfold opt. destruct (q =?s ""); [reflexivity|]. cbn [char_in append].
      apply orb_false_iff. split; [reflexivity|]. eapply free_char; [exact Hq|cbn; tauto].
  - apply cut_opt. eapply free_char; [exact Hp|cbn; tauto].
Qed.

Lemma until_netloc auth path q f : host_text auth -> path_text path ->
  until netloc_end (auth ++ path ++ opt "?" q ++ opt "#" f) = (auth, (path ++ opt "?" q ++ opt "#" f)%string).
Proof.
  intros Ha [Hp Hp2]. apply until_app.
  - apply free_all in Ha. revert Ha. clear. induction auth as [|c a IH]; cbn [all_chars]; [reflexivity|].
    intros H. apply andb_true_iff in H. destruct H as [H1 H2]. rewrite (IH H2), andb_true_r.
    apply negb_true_iff, orb_false_iff in H1. unfold netloc_end. now rewrite (proj1 H1).
  - destruct Hp2 as [->|[r ->]].
    + cbn [append]. unfold opt. destruct (q =?s "").
      * destruct (f =?s ""); [now left|right]. cbn [append]. now eexists _, _.
      * right. cbn [append]. now eexists _, _.
    + right. cbn [append]. now eexists _, _.
Qed.

Lemma split_scheme_app s r : s <> "" -> all_chars scheme_char s = true ->
  split_scheme (s ++ String ":" r) = (lower s, r).
Proof.
  intros Hn Hs. unfold split_scheme.
  assert (H : split1 ":"%char (s ++ String ":" r)%string = Some (s, r)).
  { apply split1_Some. split; [reflexivity|]. destruct (char_in ":" s) eqn:E; [|reflexivity].
    apply char_in_In in E. rewrite all_chars_In in Hs. specialize (Hs _ E). discriminate. }
  rewrite H, Hs. rewrite eqb_neq by exact Hn. reflexivity.
Qed.

(** splitting an absolute URL *)
Lemma urlsplit_abs nok s auth path q f :
  s <> "" -> all_chars scheme_char s = true ->
  host_text auth -> path_text path -> q_text q -> f_text f ->
  brackets_ok auth = true -> (auth = "" \/ nok auth = true) ->
  urlsplit nok (s ++ "://" ++ auth ++ path ++ opt "?" q ++ opt "#" f) = Ok (mkparts (lower s) auth path q f).
Proof.
  intros Hs1 Hs2 Ha Hp Hq Hf Hb Hn. unfold urlsplit.
  assert (Hfree : free_of "" (s ++ "://" ++ auth ++ path ++ opt "?" q ++ opt "#" f)).
  { apply free_app. split.
    - apply free_all, all_chars_In. intros c Hc. rewrite all_chars_In in Hs2. specialize (Hs2 c Hc).
      cbn [char_in orb]. destruct (unsafe c) eqn:E; [|reflexivity]. exfalso.
      unfold unsafe in E. apply orb_true_iff in E. destruct E as [E|E]; [apply orb_true_iff in E; destruct E as [E|E]|];
        apply Nat.eqb_eq in E; rewrite <- (ascii_nat_embedding c), E in Hs2; discriminate Hs2.
    - destruct Hp as [Hp _]. unfold host_text, q_text, f_text in *. frees. }
  rewrite (free_filter _ _ Hfree). cbn [append].
  rewrite (split_scheme_app _ _ Hs1 Hs2). unfold split_netloc. cbn [starts_with drop append Ascii.eqb Bool.eqb andb].
  rewrite (until_netloc _ _ _ _ Ha Hp), Hb.
  replace ((auth =?s "") || nok auth) with true
    by (destruct Hn as [->| ->]; [reflexivity|now rewrite orb_true_r]).
  cbn [andb]. destruct (cut_tail path q f (proj1 Hp) Hq Hf) as [E1 E2]. rewrite E1, E2. reflexivity.
Qed.

Lemma urlunsplit_abs s auth path q : s <> "" -> auth <> "" -> path_text path ->
  create_url (mkparts s auth path q "x") = (s ++ "://" ++ auth ++ path ++ opt "?" q)%string /\
  forall f, create_url (mkparts s auth path q f) = (s ++ "://" ++ auth ++ path ++ opt "?" q)%string.
Proof.
  intros Hs Ha [_ Hp]. assert (H : forall f, create_url (mkparts s auth path q f) = (s ++ "://" ++ auth ++ path ++ opt "?" q)%string).
  { intros f. unfold create_url, urlunsplit, nonempty. cbn [u_scheme u_netloc u_path u_query u_frag].
    rewrite (eqb_neq s "" Hs), (eqb_neq auth "" Ha). cbn [negb orb].
    replace (negb (path =?s "") && negb (starts_with "/" path)) with false
      by (destruct Hp as [->|[r ->]]; reflexivity).
    change (negb ("" =?s "")) with false. unfold opt. destruct (q =?s ""); cbn [negb append].
    - now rewrite sapp_nil.
    - rewrite !sapp_assoc. cbn [append]. now rewrite !sapp_assoc. }
  split; [apply H|exact H].
Qed.

Lemma wf_request_eq auth r : (WF_URL auth ++ "?" ++ urlencode [("rel", OIC_ISSUER); ("resource", r)])%string = wf_request auth r.
Proof.
  unfold WF_URL, wf_request. rewrite !sapp_assoc. reflexivity.
Qed.

Lemma query_eq nok r : query nok r = match locate nok r with Ok (a, x) => Ok (wf_request a x) | Err e => Err e end.
Proof.
  unfold query. destruct (locate nok r) as [[a x]|e]; cbn [rbind]; [|reflexivity]. now rewrite <- wf_request_eq.
Qed.

(** what [urlsplit] returns *)
Lemma urlsplit_inv nok u p : urlsplit nok u = Ok p ->
  host_text (u_netloc p) /\ free_of "?#" (u_path p) /\
  (exists a b, filter_str (fun c => negb (unsafe c)) u = (a ++ u_netloc p ++ b)%string /\
               (u_netloc p = "" \/ exists a', a = (a' ++ "//")%string /\ (u_scheme p = "" -> a' = "" ))) /\
  (u_netloc p = "" -> exists a b, filter_str (fun c => negb (unsafe c)) u = (a ++ u_path p ++ b)%string /\
               (u_scheme p = "" -> a = "" \/ starts_with "//" (filter_str (fun c => negb (unsafe c)) u) = true)) /\
  brackets_ok (u_netloc p) = true.
Proof.
  unfold urlsplit. pose proof (filter_free u) as Hfree.
  set (v := filter_str (fun c => negb (unsafe c)) u) in *. clearbody v.
  destruct (split_scheme v) as [sch u1] eqn:E1.
  destruct (split_netloc u1) as [net u2] eqn:E2.
  destruct (brackets_ok net) eqn:Eb; cbn [andb]; [|discriminate].
  destruct ((net =?s "") || nok net); [|discriminate].
  destruct (cut "#" u2) as [u3 f] eqn:E3. destruct (cut "?" u3) as [pa q] eqn:E4.
  intros H. injection H as <-. cbn [u_scheme u_netloc u_path u_query u_frag].
  assert (H1 : exists a, v = (a ++ u1)%string /\ (sch = "" -> a = "")).
  { unfold split_scheme in E1. destruct (split1 ":" v) as [[x y]|] eqn:Es.
    - apply split1_Some in Es. destruct Es as [Ev _].
      destruct (negb (x =?s "") && all_chars scheme_char x) eqn:E5; injection E1 as <- <-.
      + exists (x ++ ":")%string. split; [rewrite Ev, sapp_assoc; reflexivity|].
        intros Hl. apply andb_true_iff in E5. destruct E5 as [E5 _]. destruct x; [discriminate E5|discriminate Hl].
      + exists "". now split.
    - injection E1 as <- <-. exists "". now split. }
  destruct H1 as [a [Hv Hsch]]. rewrite Hv in Hfree. apply free_app in Hfree. destruct Hfree as [_ Hfree].
  assert (H2 : host_text net /\ exists a', u1 = (a' ++ net ++ u2)%string /\ (a' = "" /\ net = "" \/ a' = "//")).
  { unfold split_netloc in E2. destruct (starts_with "//" u1) eqn:Es.
    - apply starts_with_inv in Es. cbn [String.length] in Es. apply until_spec in E2. destruct E2 as [E2 E5].
      split.
      + apply free_all. rewrite Es, E2 in Hfree. apply free_app in Hfree. destruct Hfree as [_ Hfree].
        apply free_app in Hfree. destruct Hfree as [Hfree _]. apply free_all in Hfree.
        rewrite all_chars_In in *. intros c Hc. specialize (Hfree c Hc). specialize (E5 c Hc).
        apply negb_true_iff in Hfree, E5. unfold netloc_end in E5. cbn [char_in orb] in Hfree.
        now rewrite E5, Hfree.
      + exists "//". split; [rewrite Es at 1; now rewrite E2|now right].
    - injection E2 as <- <-. split; [intros c []|]. exists "". split; [reflexivity|now left]. }
  destruct H2 as [Hnet [a' [Hu1 Ha']]].
  apply cut_spec in E3. destruct E3 as [Hh3 Hu2]. apply cut_spec in E4. destruct E4 as [Hh4 Hu3].
  assert (Hpa : exists b, u2 = (pa ++ b)%string).
  { destruct Hu3 as [[-> _]| ->]; destruct Hu2 as [[-> _]| ->]; rewrite ?sapp_assoc; eauto;
      exists ""; now rewrite sapp_nil. }
  destruct Hpa as [b Hb]. rewrite Hu1, Hb in Hfree.
  apply free_app in Hfree. destruct Hfree as [_ Hfree]. apply free_app in Hfree. destruct Hfree as [_ Hfree].
  apply free_app in Hfree. destruct Hfree as [Hfree _].
  split; [exact Hnet|]. split.
  { intros c Hc. destruct (Hfree c Hc) as [_ Hctl]. split; [|exact Hctl].
    cbn [la In]. intros [<-|[<-|[]]].
    - assert (char_in "?" pa = true) by (now apply char_in_In). congruence.
    - assert (char_in "#" pa = true) by (now apply char_in_In).
      destruct Hu3 as [[Hu3 _]| Hu3]; [|]; subst u3; try rewrite char_in_app in Hh3; try congruence.
      rewrite H in Hh3. discriminate Hh3. }
  split.
  { exists (a ++ a')%string, u2. split; [rewrite Hv, Hu1; now rewrite sapp_assoc|].
    destruct Ha' as [[_ ->]| ->]; [now left|right]. exists a. split; [reflexivity|exact Hsch]. }
  split; [|exact Eb].
  intros Hn. subst net. exists (a ++ a')%string, b. split.
  { rewrite Hv, Hu1, Hb. rewrite sapp_assoc. reflexivity. }
  intros Hs. rewrite (Hsch Hs) in *. destruct Ha' as [[-> _]| ->]; [now left|right].
  rewrite Hv, Hu1. exact (starts_with_app "//" _).
Qed.

Lemma before_spec c s : exists t, s = (before c s ++ t)%string /\ char_in c (before c s) = false.
Proof.
  unfold before. destruct (split1 c s) as [[a b]|] eqn:E.
  - apply split1_Some in E. destruct E as [-> E]. rewrite (split_on_cons _ _ _ E). cbn [hd]. eauto.
  - apply split1_None in E. rewrite (split_on_nosep _ _ E). cbn [hd]. exists "". now rewrite sapp_nil.
Qed.
Lemma split_second c s : char_in c s = true -> exists a b, s = (a ++ String c (nth 1 (split_on c s) "") ++ b)%string /\ char_in c a = false
  /\ char_in c (nth 1 (split_on c s) "") = false /\ (b = "" \/ exists r, b = String c r).
Proof.
  intros H. destruct (split1 c s) as [[a r]|] eqn:E; [|apply split1_None in E; congruence].
  apply split1_Some in E. destruct E as [-> E]. rewrite (split_on_cons _ _ _ E). cbn [nth].
  destruct (split1 c r) as [[a2 r2]|] eqn:E2.
  - apply split1_Some in E2. destruct E2 as [-> E2]. rewrite (split_on_cons _ _ _ E2). cbn [nth].
    exists a, (String c r2). cbn [append]. repeat split; auto. right. now exists r2.
  - apply split1_None in E2. rewrite (split_on_nosep _ _ E2). cbn [nth].
    exists a, "". rewrite sapp_nil. repeat split; auto.
Qed.
Lemma contains_char c s : contains (String c "") s = char_in c s.
Proof.
  induction s as [|a s IH]; [reflexivity|]. cbn [contains starts_with char_in].
  rewrite IH, andb_true_r. reflexivity.
Qed.

Lemma filter_str_app f a b : filter_str f (a ++ b) = (filter_str f a ++ filter_str f b)%string.
Proof. induction a as [|c a IH]; cbn [append filter_str]; [reflexivity|]. rewrite IH. now destruct (f c). Qed.
Lemma until_app2 f a c r : f c = true -> until f (a ++ String c r) = (fst (until f a), (snd (until f a) ++ String c r)%string).
Proof.
  intros H. induction a as [|d a IH]; cbn [append until]. { now rewrite H. }
  destruct (f d) eqn:E; [reflexivity|]. rewrite IH. now destruct (until f a).
Qed.

Notation clean := (filter_str (fun c => negb (unsafe c))).
(** splitting "https://" ++ x *)
Lemma urlsplit_https nok x p : urlsplit nok ("https://" ++ x) = Ok p ->
  u_scheme p = "https" /\ u_netloc p = fst (until netloc_end (clean x)) /\ host_text (u_netloc p).
Proof.
  intros H. destruct (urlsplit_inv _ _ _ H) as [Hh _]. revert H. unfold urlsplit. rewrite filter_str_app.
  change (clean "https://") with ("https" ++ String ":" "//")%string. rewrite sapp_assoc. cbn [append].
  change (String "h" (String "t" (String "t" (String "p" (String "s" (String ":" (String "/" (String "/" (clean x)))))))))
    with ("https" ++ String ":" ("//" ++ clean x))%string.
  rewrite (split_scheme_app "https" ("//" ++ clean x) ltac:(discriminate) eq_refl).
  change (split_netloc ("//" ++ clean x)) with (until netloc_end (clean x)).
  change (lower "https") with "https".
  destruct (until netloc_end (clean x)) as [net u2]. 
  destruct (brackets_ok net && ((net =?s "") || nok net)); [|discriminate].
  destruct (cut "#" u2) as [u3 f]. destruct (cut "?" u3) as [pa q].
  intros H. injection H as <-. cbn [u_scheme u_netloc fst] in *. now split.
Qed.
Lemma until_prefix f s : exists b, s = (fst (until f s) ++ b)%string.
Proof. destruct (until f s) as [a b] eqn:E. apply until_spec in E. destruct E as [-> _]. eauto. Qed.
Lemma create_url_nonempty p : u_scheme p <> "" -> create_url p <> "".
Proof.
  intros H. unfold create_url, urlunsplit, nonempty. cbn [u_scheme u_netloc u_path u_query u_frag].
  rewrite (eqb_neq _ _ H). cbn [negb]. change (negb ("" =?s "")) with false. cbn [negb].
  destruct (u_scheme p) as [|c s]; [congruence|]. cbn [append].
  destruct (negb (u_query p =?s "")); discriminate.
Qed.
Lemma free_prefix bad a b : free_of bad (a ++ b)%string -> free_of bad a.
Proof. intros H. now apply free_app in H. Qed.

Lemma locate_inv nok r a x : locate nok r = Ok (a, x) ->
  host_text a /\ x <> "" /\ exists u v, clean r = (u ++ a ++ v)%string.
Proof.
  destruct r as [|c r0]; [discriminate|]. unfold locate.
  set (r := String c r0). clearbody r.
  destruct (char_in c "=@!"); [discriminate|].
  destruct (urlsplit nok r) as [part|e] eqn:Ep; [|discriminate]. cbn [rbind].
  destruct (urlsplit_inv _ _ _ Ep) as [Hh [Hpa [Hsub [Hnone _]]]].
  destruct (u_scheme part =?s "") eqn:Es.
  - destruct (u_netloc part =?s "") eqn:En; [|discriminate].
    apply eqb_true_iff in En. destruct (Hnone En) as [u [v [Hc _]]].
    assert (Hcp : clean (u_path part) = u_path part) by (eapply free_filter; exact Hpa).
    destruct ((u_query part =?s "") && (u_frag part =?s "")) eqn:Eqf.
    + destruct (contains "/" (u_path part) || contains ":" (u_path part)) eqn:Eslash.
      * destruct (urlsplit nok ("https://" ++ r)) as [p|e] eqn:E2; [|discriminate]. cbn [rbind].
        intros H. assert (H1 : a = u_netloc p) by congruence. assert (H2 : x = ("https://" ++ r)%string) by congruence. subst a x.
        destruct (urlsplit_https _ _ _ E2) as [_ [Hn Ht]]. split; [exact Ht|]. split; [discriminate|].
        destruct (until_prefix netloc_end (clean r)) as [b Hb]. exists "", b. now rewrite Hn.
      * intros H. assert (H1 : a = (if contains "@" (u_path part) then nth 1 (split_on "@" (u_path part)) "" else u_path part)) by congruence.
        assert (H2 : x = ("acct:" ++ u_path part)%string) by congruence. clear H. subst x.
        apply orb_false_iff in Eslash. destruct Eslash as [Eslash _].
        change "/" with (String "/" "") in Eslash. rewrite contains_char in Eslash.
        assert (Hps : host_text (u_path part)).
        { intros d Hd. destruct (Hpa d Hd) as [H3 H4]. split; [|exact H4]. cbn [la In] in *. intros [<-|[<-|[<-|[]]]]; [|tauto|tauto].
          apply char_in_In in Hd. congruence. }
        destruct (contains "@" (u_path part)) eqn:Eat.
        -- change "@" with (String "@" "") in Eat. rewrite contains_char in Eat.
           destruct (split_second _ _ Eat) as [a1 [b1 [Hs _]]]. rewrite <- H1 in Hs.
           rewrite Hs in Hps. split.
           { unfold host_text in *. apply free_app in Hps. destruct Hps as [_ Hps].
             change (String "@" a ++ b1)%string with ("@" ++ a ++ b1)%string in Hps.
             apply free_app in Hps. destruct Hps as [_ Hps]. now apply free_app in Hps. }
           split; [discriminate|]. rewrite Hc, Hs. exists (u ++ a1 ++ "@")%string, (b1 ++ v)%string.
           rewrite !sapp_assoc. cbn [append]. rewrite ?sapp_assoc. reflexivity.
        -- subst a. split; [exact Hps|]. split; [discriminate|]. eauto.
    + destruct (nonempty (u_query part)) eqn:Eq.
      * destruct (urlsplit nok ("https://" ++ u_path part ++ "?" ++ u_query part)) as [p|e] eqn:E2; [|discriminate].
        cbn [rbind]. intros H. assert (H1 : a = u_netloc p) by congruence.
        assert (H2 : x = ("https://" ++ u_path part ++ "?" ++ u_query part)%string) by congruence. clear H. subst a x.
        destruct (urlsplit_https _ _ _ E2) as [_ [Hn Ht]]. split; [exact Ht|]. split; [discriminate|].
        rewrite !filter_str_app, Hcp in Hn. change (clean "?" ++ clean (u_query part))%string with (String "?" (clean (u_query part))) in Hn.
        rewrite until_app2 in Hn by reflexivity. cbn [fst] in Hn.
        destruct (until_prefix netloc_end (u_path part)) as [b Hb]. rewrite Hc, Hb, <- Hn.
        exists u, (b ++ v)%string. now rewrite !sapp_assoc.
      * destruct (urlsplit nok ("https://" ++ u_path part)) as [p|e] eqn:E2; [|discriminate].
        cbn [rbind]. intros H. assert (H1 : a = u_netloc p) by congruence.
        assert (H2 : x = ("https://" ++ u_path part)%string) by congruence. clear H. subst a x.
        destruct (urlsplit_https _ _ _ E2) as [_ [Hn Ht]]. split; [exact Ht|]. split; [discriminate|].
        rewrite Hcp in Hn.
        destruct (until_prefix netloc_end (u_path part)) as [b Hb]. rewrite Hc, Hb, <- Hn.
        exists u, (b ++ v)%string. now rewrite !sapp_assoc.
  - assert (Hs : u_scheme part <> "") by (intros E; rewrite E in Es; discriminate Es).
    destruct (negb (mem_str (u_scheme part) ["http"; "https"; "acct"])) eqn:E1.
    { destruct (urlsplit nok ("https://" ++ r)) as [p|e] eqn:E2; [|discriminate]. cbn [rbind].
      intros H. assert (H1 : a = u_netloc p) by congruence. assert (H2 : x = create_url p) by congruence. subst a x.
      destruct (urlsplit_https _ _ _ E2) as [Hsch [Hn Ht]]. split; [exact Ht|].
      split; [apply create_url_nonempty; rewrite Hsch; discriminate|].
      destruct (until_prefix netloc_end (clean r)) as [b Hb]. exists "", b. now rewrite Hn. }
    destruct (mem_str (u_scheme part) ["http"; "https"] && (u_netloc part =?s "")); [discriminate|].
    destruct (u_scheme part =?s "acct") eqn:Ea.
    + destruct (contains "@" (before "?" (before "/" (u_path part)))) eqn:Eat; [|discriminate].
      intros H. assert (H1 : a = before "#" (nth 1 (split_on "@" (before "?" (before "/" (u_path part)))) "")) by congruence.
      assert (H2 : x = create_url part) by congruence. clear H. subst x.
      destruct (before_spec "/" (u_path part)) as [t1 [Ht1 Hn1]].
      destruct (before_spec "?" (before "/" (u_path part))) as [t2 [Ht2 Hn2]].
      change "@" with (String "@" "") in Eat. rewrite contains_char in Eat.
      destruct (split_second _ _ Eat) as [a1 [b1 [Hsp _]]].
      destruct (before_spec "#" (nth 1 (split_on "@" (before "?" (before "/" (u_path part)))) "")) as [t3 [Ht3 _]].
      rewrite <- H1 in Ht3. rewrite Ht3 in Hsp.
      assert (Hps : host_text (before "/" (u_path part))).
      { intros d Hd. rewrite Ht1 in Hpa. apply free_prefix in Hpa. destruct (Hpa d Hd) as [H3 H4].
        split; [|exact H4]. cbn [la In] in *. intros [<-|[<-|[<-|[]]]]; [|tauto|tauto].
        apply char_in_In in Hd. congruence. }
      assert (Hnet : u_netloc part = "").
      { destruct (u_netloc part) as [|n0 n1] eqn:En; [reflexivity|]. exfalso.
        (* with a network location the path is empty or begins with a slash *)
        revert Ep En Eat. unfold urlsplit. destruct (split_scheme (clean r)) as [sch u1].
        unfold split_netloc. destruct (starts_with "//" u1).
        2:{ destruct (brackets_ok "" && (("" =?s "") || nok "")); [|discriminate].
            destruct (cut "#" u1) as [u3 f]. destruct (cut "?" u3) as [pa q]. intros E. injection E as <-. discriminate. }
        destruct (until netloc_end (drop 2 u1)) as [net u2] eqn:Eu.
        destruct (brackets_ok net && ((net =?s "") || nok net)); [|discriminate].
        destruct (cut "#" u2) as [u3 f] eqn:Ecut. destruct (cut "?" u3) as [pa q] eqn:Ecut2.
        intros E _. injection E as <-. cbn [u_path].
        assert (Hu2 : u2 = "" \/ exists d w, u2 = String d w /\ netloc_end d = true).
        { clear - Eu. revert net u2 Eu. induction (drop 2 u1) as [|d w IH]; cbn [until]; intros net u2 H.
          - injection H as <- <-. now left.
          - destruct (netloc_end d) eqn:Ed; [injection H as <- <-; right; eauto|].
            destruct (until netloc_end w) as [a b] eqn:E. injection H as <- <-. eapply IH; reflexivity. }
        apply cut_spec in Ecut. destruct Ecut as [Hc1 Hc2]. apply cut_spec in Ecut2. destruct Ecut2 as [Hc3 Hc4].
        assert (Hpa2 : pa = "" \/ exists w, pa = String "/" w).
        { destruct pa as [|d w]; [now left|right].
          assert (Hd : exists w', u2 = String d w').
          { destruct Hc4 as [[-> _]| ->]; destruct Hc2 as [[-> _]| ->]; cbn [append]; eauto. }
          destruct Hd as [w' ->]. destruct Hu2 as [Hu2|[d' [w2 [Hu2 Hd]]]]; [discriminate|].
          injection Hu2 as <- <-. unfold netloc_end in Hd. cbn [char_in] in Hd. rewrite !orb_true_iff in Hd.
          assert (char_in d (String d w) = true) by (cbn [char_in]; now rewrite Ascii.eqb_refl).
          assert (Hd3 : char_in d u3 = true).
          { destruct Hc4 as [[-> _]| ->]; [exact H|]. rewrite char_in_app, H. reflexivity. }
          destruct Hd as [Hd|[Hd|[Hd|Hd]]]; [| | |discriminate Hd]; apply Ascii.eqb_eq in Hd; subst d; try congruence.
          now eexists. }
        destruct Hpa2 as [->|[w ->]]; cbn; discriminate. }
      destruct (Hnone Hnet) as [u [v [Hc _]]].
      assert (Hsub2 : exists b, u_path part = (before "?" (before "/" (u_path part)) ++ b)%string).
      { exists (t2 ++ t1)%string. rewrite <- sapp_assoc, <- Ht2. exact Ht1. }
      destruct Hsub2 as [b2 Hb2].
      split.
      { rewrite Ht2 in Hps. apply free_prefix in Hps. rewrite Hsp in Hps. unfold host_text in *.
        apply free_app in Hps. destruct Hps as [_ Hps].
        change (String "@" (a ++ t3) ++ b1)%string with ("@" ++ (a ++ t3) ++ b1)%string in Hps.
        apply free_app in Hps. destruct Hps as [_ Hps]. apply free_prefix in Hps. now apply free_prefix in Hps. }
      split; [now apply create_url_nonempty|].
      rewrite Hc, Hb2, Hsp. exists (u ++ a1 ++ "@")%string, (t3 ++ b1 ++ b2 ++ v)%string.
      rewrite !sapp_assoc. cbn [append]. rewrite ?sapp_assoc. reflexivity.
    + intros H. assert (H1 : a = u_netloc part) by congruence. assert (H2 : x = create_url part) by congruence. subst a x.
      split; [exact Hh|]. split; [now apply create_url_nonempty|].
      destruct Hsub as [u [v [Hc _]]]. eauto.
Qed.
