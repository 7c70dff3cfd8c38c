(** Property theorems C33: WebFinger issuer discovery.  [nok] is any set of further
    checks Python makes on a network location. *)
From Verif Require Import Base BaseP Json Msg M_State M_Ctx M_Codec P_Codec M_Provider M_WebFinger S_WebFinger P_WebFinger.

(** ** the query *)

(** Whatever the resource identifier, the query goes over https to the well-known
    WebFinger path of one host, with the OpenID issuer relation and the resource as its
    only parameters; the host text holds no character that could move the path, and it
    is text that occurs in the identifier (tab, CR and LF removed). *)
Theorem C33_query_is_https_to_host : forall nok r url, query nok r = Ok url ->
  exists host resource, url = wf_request host resource /\ host_text host /\
    (exists a b, filter_str (fun c => negb (ctl c)) r = (a ++ host ++ b)%string) /\
    split1 "?"%char url = Some (("https://" ++ host ++ "/.well-known/webfinger")%string,
                                urlencode [("rel", OIC_ISSUER); ("resource", resource)]) /\
    parse_qsl (urlencode [("rel", OIC_ISSUER); ("resource", resource)]) =
      [("rel", "http://openid.net/specs/connect/1.0/issuer"); ("resource", resource)].
Proof.
  intros nok r url. rewrite query_eq. destruct (locate nok r) as [[a x]|e] eqn:E; [|discriminate].
  intros H. injection H as <-. destruct (locate_inv _ _ _ _ E) as [Hh [Hx Hs]].
  exists a, x. split; [reflexivity|]. split; [exact Hh|]. split; [exact Hs|]. split.
  - apply split1_Some. rewrite <- wf_request_eq. split; [reflexivity|].
    unfold host_text in Hh. rewrite !char_in_app. rewrite (free_char _ _ _ Hh) by (cbn; tauto). reflexivity.
  - apply urlencode_roundtrip; constructor; [discriminate|constructor; [exact Hx|constructor]].
Qed.
Print Assumptions C33_query_is_https_to_host.

(** acct:user@host[/path][?query][#fragment] asks host for the account *)
Theorem C33_query_acct : forall nok user host path q f,
  free_of "@/?#" user -> free_of "@/?#" host -> path_text path -> free_of "#" q -> free_of "" f ->
  query nok ("acct:" ++ user ++ "@" ++ host ++ path ++ opt "?" q ++ opt "#" f)
  = Ok (wf_request host ("acct:" ++ user ++ "@" ++ host ++ path ++ opt "?" q)).
Proof.
  intros nok user host path q f Hu Hh [Hp Hp2] Hq Hf. rewrite query_eq. 
  set (r := ("acct:" ++ user ++ "@" ++ host ++ path ++ opt "?" q ++ opt "#" f)%string).
  set (upath := (user ++ "@" ++ host ++ path)%string).
  assert (Hup : free_of "?#" upath) by (unfold upath; frees).
  assert (Hfree : free_of "" r) by (unfold r; frees).
  assert (Eu : urlsplit nok r = Ok (mkparts "acct" "" upath q f)).
  { unfold urlsplit. rewrite (free_filter _ _ Hfree).
    assert (Er : r = ("acct" ++ String ":" (upath ++ opt "?" q ++ opt "#" f))%string)
      by (unfold r, upath; rewrite !sapp_assoc; reflexivity).
    rewrite Er, (split_scheme_app "acct" _ ltac:(discriminate) eq_refl).
    assert (En : split_netloc (upath ++ opt "?" q ++ opt "#" f) = ("", (upath ++ opt "?" q ++ opt "#" f)%string)).
    { unfold split_netloc, upath. destruct user as [|c user]; [reflexivity|].
      assert (Hc : c <> "/"%char) by (intros ->; destruct (Hu "/"%char (or_introl eq_refl)) as [H _]; apply H; cbn; tauto).
      cbn [append starts_with]. rewrite (proj2 (Ascii.eqb_neq _ _)) by congruence. reflexivity. }
    rewrite En. destruct (cut_tail upath q f Hup Hq Hf) as [E1 E2]. cbn [brackets_ok].
    change (brackets_ok "" && (("" =?s "") || nok "")) with true. cbv iota. rewrite E1, E2. reflexivity. }
  unfold locate. change r with (String "a" (drop 1 r)) at 1. cbv iota beta.
  change (char_in "a" "=@!") with false. cbv iota. rewrite Eu. cbn [rbind u_scheme u_netloc u_path u_query u_frag].
  change ("acct" =?s "") with false. change (mem_str "acct" ["http"; "https"; "acct"]) with true.
  change (mem_str "acct" ["http"; "https"]) with false. change ("acct" =?s "acct") with true. cbn [negb andb].
  assert (Eb1 : before "/" upath = (user ++ "@" ++ host)%string).
  { unfold before, upath. assert (Hns : char_in "/" (user ++ "@" ++ host)%string = false).
    { rewrite !char_in_app, (free_char _ _ _ Hu), (free_char _ _ _ Hh) by (cbn; tauto). reflexivity. }
    destruct Hp2 as [->|[w ->]].
    - rewrite sapp_nil, (split_on_nosep _ _ Hns). reflexivity.
    - replace (user ++ "@" ++ host ++ "/" ++ w)%string with ((user ++ "@" ++ host) ++ String "/" w)%string
        by (rewrite !sapp_assoc; reflexivity).
      rewrite (split_on_cons _ _ _ Hns). reflexivity. }
  assert (Eb2 : before "?" (before "/" upath) = (user ++ "@" ++ host)%string).
  { rewrite Eb1. unfold before. rewrite split_on_nosep; [reflexivity|].
    rewrite !char_in_app, (free_char _ _ _ Hu), (free_char _ _ _ Hh) by (cbn; tauto). reflexivity. }
  rewrite Eb2. change "@" with (String "@" "") at 1. rewrite contains_char, !char_in_app.
  replace (char_in "@" user || (char_in "@" "@" || char_in "@" host)) with true
    by (change (char_in "@" "@") with true; now rewrite orb_true_r).
  change (user ++ "@" ++ host)%string with (user ++ String "@" host)%string.
  rewrite (split_on_cons "@" user host) by (eapply free_char; [exact Hu|cbn; tauto]).
  rewrite (split_on_nosep "@" host) by (eapply free_char; [exact Hh|cbn; tauto]). cbn [nth].
  unfold before. rewrite (split_on_nosep "#" host) by (eapply free_char; [exact Hh|cbn; tauto]). cbn [hd].
  f_equal. f_equal. unfold create_url, urlunsplit, nonempty. cbn [u_scheme u_netloc u_path u_query u_frag].
  change (negb ("" =?s "")) with false. change (negb ("acct" =?s "")) with true.
  change (mem_str "acct" uses_netloc) with false. cbn [orb andb]. unfold opt, upath.
  destruct (q =?s ""); cbn [negb append]; rewrite ?sapp_nil; [reflexivity|].
  rewrite !sapp_assoc. cbn [append]. rewrite ?sapp_assoc. reflexivity.
Qed.
Print Assumptions C33_query_acct.

(** http(s)://host[/path][?query][#fragment] asks host for that URL without its fragment *)
Theorem C33_query_url : forall nok s host path q f, In s ["http"; "https"] ->
  host_text host -> host <> "" -> path_text path -> free_of "#" q -> free_of "" f ->
  brackets_ok host = true -> nok host = true ->
  query nok (s ++ "://" ++ host ++ path ++ opt "?" q ++ opt "#" f)
  = Ok (wf_request host (s ++ "://" ++ host ++ path ++ opt "?" q)).
Proof.
  intros nok s host path q f Hs Hh Hn Hp Hq Hf Hb Hk. rewrite query_eq.
  assert (Hs1 : s <> "") by (destruct Hs as [<-|[<-|[]]]; discriminate).
  assert (Hs2 : all_chars scheme_char s = true) by (destruct Hs as [<-|[<-|[]]]; reflexivity).
  assert (Hl : lower s = s) by (destruct Hs as [<-|[<-|[]]]; reflexivity).
  pose proof (urlsplit_abs nok s host path q f Hs1 Hs2 Hh Hp Hq Hf Hb (or_intror Hk)) as Eu. rewrite Hl in Eu.
  destruct (urlunsplit_abs s host path q Hs1 Hn Hp) as [_ Ec].
  assert (El : locate nok (s ++ "://" ++ host ++ path ++ opt "?" q ++ opt "#" f) =
               Ok (host, (s ++ "://" ++ host ++ path ++ opt "?" q)%string)).
  { unfold locate. rewrite Eu. destruct Hs as [<-|[<-|[]]]; cbn [append]; cbv iota;
      change (char_in "h" "=@!") with false; cbv iota; cbn [rbind u_scheme u_netloc];
      rewrite (eqb_neq host "" Hn).
    - change ("http" =?s "") with false. change (mem_str "http" ["http"; "https"; "acct"]) with true.
      cbn [negb]. rewrite andb_false_r. change ("http" =?s "acct") with false. cbv iota. rewrite Ec. reflexivity.
    - change ("https" =?s "") with false. change (mem_str "https" ["http"; "https"; "acct"]) with true.
      cbn [negb]. rewrite andb_false_r. change ("https" =?s "acct") with false. cbv iota. rewrite Ec. reflexivity. }
  rewrite El. reflexivity.
Qed.
Print Assumptions C33_query_url.

Definition not_scheme (r s : string) : Prop := starts_with (s ++ ":") (lower r) = false.
Lemma split_scheme_other r : Forall (not_scheme r) ["http"; "https"; "acct"] ->
  split_scheme r = ("", r) \/
  exists s b, split_scheme r = (s, b) /\ s <> "" /\ mem_str s ["http"; "https"; "acct"] = false.
Proof.
  intros H. unfold split_scheme. destruct (split1 ":" r) as [[a b]|] eqn:E; [|now left].
  destruct (negb (a =?s "") && all_chars scheme_char a) eqn:E2; [|now left]. right.
  exists (lower a), b. split; [reflexivity|]. apply andb_true_iff in E2. destruct E2 as [E2 _].
  split; [destruct a; [discriminate E2|discriminate]|].
  apply split1_Some in E. destruct E as [-> _].
  assert (El : lower (a ++ String ":" b)%string = (lower a ++ String ":" (lower b))%string).
  { clear. induction a as [|c a IH]; [reflexivity|]. unfold lower in *. cbn [append map_str]. now rewrite IH. }
  destruct (mem_str (lower a) ["http"; "https"; "acct"]) eqn:Em; [|reflexivity].
  apply mem_str_In in Em. rewrite Forall_forall in H. specialize (H _ Em). unfold not_scheme in H.
  rewrite El in H. change (lower a ++ String ":" (lower b))%string with (lower a ++ ":" ++ lower b)%string in H.
  rewrite <- sapp_assoc, starts_with_app in H. discriminate.
Qed.

(** host[:port][/path][?query][#fragment], not a bare host: https is assumed *)
Theorem C33_query_hostport : forall nok host path q f,
  Forall (not_scheme (host ++ path ++ opt "?" q ++ opt "#" f)) ["http"; "https"; "acct"] ->
  host_text host -> host <> "" -> (forall c r, host = String c r -> ~ In c (la "=@!")) ->
  path_text path -> starts_with "//" path = false ->
  free_of "#" q -> free_of "" f -> brackets_ok host = true -> nok host = true ->
  In ":"%char (la host) \/ path <> "" \/ q <> "" \/ f <> "" ->
  query nok (host ++ path ++ opt "?" q ++ opt "#" f) = Ok (wf_request host ("https://" ++ host ++ path ++ opt "?" q)).
Proof.
  intros nok host path q f Hsch Hh Hn Hc0 Hp Hpp Hq Hf Hb Hk Hsome. rewrite query_eq.
  set (r := (host ++ path ++ opt "?" q ++ opt "#" f)%string) in *.
  assert (Hfree : free_of "" r) by (destruct Hp as [Hp _]; unfold r, host_text in *; frees).
  pose proof (urlsplit_abs nok "https" host path q f ltac:(discriminate) eq_refl Hh Hp Hq Hf Hb (or_intror Hk)) as Eu.
  change (lower "https") with "https" in Eu.
  destruct (urlunsplit_abs "https" host path q ltac:(discriminate) Hn Hp) as [_ Ec].
  change ("https" ++ "://" ++ host ++ path ++ opt "?" q ++ opt "#" f)%string with ("https://" ++ r)%string in Eu.
  change ("https" ++ "://" ++ host ++ path ++ opt "?" q)%string with ("https://" ++ host ++ path ++ opt "?" q)%string in Ec.
  enough (El : locate nok r = Ok (host, ("https://" ++ host ++ path ++ opt "?" q)%string)) by now rewrite El.
  assert (Eh : exists c0 host0, host = String c0 host0) by (clear - Hn; destruct host; [congruence|eauto]).
  destruct Eh as [c0 [host0 Eh]].
  unfold locate. assert (Er : exists r0, r = String c0 r0) by (unfold r; rewrite Eh; cbn [append]; eauto).
  destruct Er as [r0 Er]. rewrite Er. cbv iota beta. rewrite <- Er.
  replace (char_in c0 "=@!") with false.
  2:{ destruct (char_in c0 "=@!") eqn:E; [|reflexivity]. apply char_in_In in E. exfalso. eapply Hc0; [exact Eh|exact E]. }
  cbv iota.
  assert (Hpath : free_of "?#" (host ++ path)%string).
  { destruct Hp as [Hp _]. unfold host_text in Hh. frees. }
  assert (Hslash : starts_with "//" r = false).
  { unfold r. rewrite Eh. cbn [append starts_with]. replace (Ascii.eqb "/" c0) with false; [reflexivity|].
    symmetry. apply Ascii.eqb_neq. intros <-. rewrite Eh in Hh. destruct (Hh "/"%char (or_introl eq_refl)) as [Hx _]. apply Hx. cbn. tauto. }
  destruct (cut_tail (host ++ path) q f Hpath Hq Hf) as [E1 E2]. rewrite !sapp_assoc in E1. rewrite sapp_assoc in E2. fold r in E1.
  destruct (split_scheme_other r Hsch) as [Es|[s [b [Es [Hs1 Hs2]]]]].
  - assert (Ep : urlsplit nok r = Ok (mkparts "" "" (host ++ path) q f)).
    { unfold urlsplit. rewrite (free_filter _ _ Hfree), Es. unfold split_netloc. rewrite Hslash.
      change (brackets_ok "" && (("" =?s "") || nok "")) with true. cbv iota. rewrite E1. rewrite E2. reflexivity. }
    rewrite Ep. cbn [rbind u_scheme u_netloc u_path u_query u_frag]. change ("" =?s "") with true. cbv iota.
    destruct (q =?s "") eqn:Eq.
    + apply eqb_true_iff in Eq. rewrite Eq in *. cbn [andb]. destruct (f =?s "") eqn:Ef.
      * apply eqb_true_iff in Ef. rewrite Ef in *.
        assert (Hcon : contains "/" (host ++ path) || contains ":" (host ++ path) = true).
        { change "/" with (String "/" ""). change ":" with (String ":" "").
          rewrite !contains_char, !char_in_app.
          destruct Hsome as [Hs|[Hs|[Hs|Hs]]]; [| |congruence|congruence].
          - apply char_in_In in Hs. rewrite Hs. rewrite ?orb_true_r; now cbn [orb]; rewrite ?orb_true_r.
          - destruct Hp as [_ [->|[w ->]]]; [congruence|]. change (char_in "/" ("/" ++ w)) with true.
            now rewrite ?orb_true_r. }
        rewrite Hcon. rewrite Eu. cbn [rbind u_netloc]. unfold r. rewrite Eq, Ef, !opt_nil, !sapp_nil. reflexivity.
      * change (nonempty "") with false. cbv iota.
        pose proof (urlsplit_abs nok "https" host path "" "" ltac:(discriminate) eq_refl Hh Hp
                      ltac:(intros ? []) ltac:(intros ? []) Hb (or_intror Hk)) as Eu2.
        rewrite !opt_nil, !sapp_nil in Eu2.
        change ("https" ++ "://" ++ host ++ path)%string with ("https://" ++ host ++ path)%string in Eu2.
        rewrite Eu2. cbn [rbind u_netloc]. rewrite opt_nil, sapp_nil. reflexivity.
    + cbn [andb]. unfold nonempty. rewrite Eq. cbn [negb].
      pose proof (urlsplit_abs nok "https" host path q "" ltac:(discriminate) eq_refl Hh Hp Hq
                    ltac:(intros ? []) Hb (or_intror Hk)) as Eu2.
      rewrite opt_nil, sapp_nil in Eu2.
      change ("https" ++ "://" ++ host ++ path ++ opt "?" q)%string with ("https://" ++ host ++ path ++ opt "?" q)%string in Eu2.
      assert (Ex : ("https://" ++ (host ++ path) ++ "?" ++ q)%string = ("https://" ++ host ++ path ++ opt "?" q)%string).
      { unfold opt. rewrite Eq. now rewrite !sapp_assoc. }
      rewrite Ex, Eu2. reflexivity.
  - assert (Ep : exists p, urlsplit nok r = Ok p /\ u_scheme p = s).
    { unfold urlsplit. rewrite (free_filter _ _ Hfree), Es.
      assert (Hb2 : starts_with "//" b = false).
      { destruct (starts_with "//" b) eqn:Eb2; [exfalso|reflexivity].
        apply starts_with_inv in Eb2. remember (drop (String.length "//") b) as w eqn:Hw.
        unfold split_scheme in Es. destruct (split1 ":" r) as [[a b1]|] eqn:Esp; [|injection Es as <- <-; congruence].
        destruct (negb (a =?s "") && all_chars scheme_char a) eqn:Ea; [|injection Es as <- <-; congruence].
        injection Es as _ ->. apply split1_Some in Esp. destruct Esp as [Er2 _].
        apply andb_true_iff in Ea. destruct Ea as [_ Ea].
        pose proof (until_netloc host path q f Hh Hp) as U1. fold r in U1.
        assert (U2 : until netloc_end ((a ++ ":") ++ String "/" (String "/" w)) = ((a ++ ":")%string, String "/" (String "/" w))).
        { apply until_app; [|right; now eexists _, _]. rewrite all_chars_app. apply andb_true_iff. split; [|reflexivity].
          apply all_chars_In. intros c Hc. rewrite all_chars_In in Ea. specialize (Ea c Hc).
          destruct (netloc_end c) eqn:En; [exfalso|reflexivity]. unfold netloc_end in En. apply char_in_In in En.
          cbn [la In] in En. destruct En as [<-|[<-|[<-|[]]]]; discriminate Ea. }
        assert (Er3 : r = ((a ++ ":") ++ String "/" (String "/" w))%string)
          by (rewrite Er2, Eb2; rewrite sapp_assoc; reflexivity).
        rewrite Er3, U2 in U1. injection U1 as _ U1.
        destruct Hp as [_ [->|[w2 ->]]].
        - revert U1. unfold opt. destruct (q =?s ""), (f =?s ""); cbn [append]; discriminate.
        - cbn [append] in U1, Hpp. injection U1 as U1. destruct w2 as [|d w2].
          + revert U1. unfold opt. destruct (q =?s ""), (f =?s ""); cbn [append]; discriminate.
          + cbn [append] in U1. injection U1 as <- _. discriminate Hpp. }
      unfold split_netloc. rewrite Hb2. change (brackets_ok "" && (("" =?s "") || nok "")) with true. cbv iota.
      destruct (cut "#" b) as [u3 fr]. destruct (cut "?" u3) as [pa qq]. eauto. }
    destruct Ep as [p [Ep Eps]]. rewrite Ep. cbn [rbind]. rewrite Eps, (eqb_neq _ _ Hs1), Hs2. cbn [negb].
    rewrite Eu. cbn [rbind u_netloc]. rewrite Ec. reflexivity.
Qed.
Print Assumptions C33_query_hostport.

(** an identifier without '/', '?', '#' and ':' is taken apart into itself *)
Lemma urlsplit_plain nok r : free_of "/?#:" r -> urlsplit nok r = Ok (mkparts "" "" r "" "").
Proof.
  intros H. unfold urlsplit. rewrite (free_filter _ _ H).
  assert (E1 : split_scheme r = ("", r)).
  { unfold split_scheme. assert (E : split1 ":" r = None) by (apply split1_None; eapply free_char; [exact H|cbn; tauto]).
    now rewrite E. }
  assert (E2 : split_netloc r = ("", r)).
  { unfold split_netloc. destruct (starts_with "//" r) eqn:E; [|reflexivity]. apply starts_with_inv in E.
    pose proof (free_char _ _ "/"%char H ltac:(cbn; tauto)) as Hs. rewrite E in Hs. discriminate Hs. }
  rewrite E1, E2. change (brackets_ok "" && (("" =?s "") || nok "")) with true. cbv iota.
  assert (E3 : cut "#" r = (r, "")) by (rewrite <- (sapp_nil r) at 1; apply (cut_opt "#" r ""); eapply free_char; [exact H|cbn; tauto]).
  assert (E4 : cut "?" r = (r, "")) by (rewrite <- (sapp_nil r) at 1; apply (cut_opt "?" r ""); eapply free_char; [exact H|cbn; tauto]).
  now rewrite E3, E4.
Qed.
Lemma locate_plain nok r c0 r0 : r = String c0 r0 -> ~ In c0 (la "=@!") -> free_of "/?#:" r ->
  locate nok r = Ok (if contains "@" r then nth 1 (split_on "@" r) "" else r, ("acct:" ++ r)%string).
Proof.
  intros Er Hc H. unfold locate. rewrite Er. cbv iota beta. rewrite <- Er.
  replace (char_in c0 "=@!") with false.
  2:{ destruct (char_in c0 "=@!") eqn:E; [|reflexivity]. apply char_in_In in E. contradiction. }
  cbv iota. rewrite (urlsplit_plain _ _ H). cbn [rbind u_scheme u_netloc u_path u_query u_frag].
  change ("" =?s "") with true. cbn [andb].
  change "/" with (String "/" "") at 1. change ":" with (String ":" "") at 1. rewrite !contains_char.
  rewrite (free_char _ _ "/"%char H), (free_char _ _ ":"%char H) by (cbn; tauto). reflexivity.
Qed.

(** user@host asks host for the account acct:user@host *)
Theorem C33_query_user_at_host : forall nok user host, user <> "" -> (forall c r, user = String c r -> ~ In c (la "=@!")) ->
  free_of "@/?#:" user -> free_of "@/?#:" host ->
  query nok (user ++ "@" ++ host) = Ok (wf_request host ("acct:" ++ user ++ "@" ++ host)).
Proof.
  intros nok user host Hn Hc Hu Hh. destruct user as [|c0 u0] eqn:Eu; [congruence|]. rewrite <- Eu in *.
  rewrite query_eq, (locate_plain nok (user ++ "@" ++ host) c0 (u0 ++ "@" ++ host)%string).
  - change "@" with (String "@" "") at 1. rewrite contains_char, char_in_app. change (char_in "@" ("@" ++ host)) with true.
    rewrite orb_true_r. change (user ++ "@" ++ host)%string with (user ++ String "@" host)%string.
    rewrite (split_on_cons "@" user host) by (eapply free_char; [exact Hu|cbn; tauto]).
    rewrite (split_on_nosep "@" host) by (eapply free_char; [exact Hh|cbn; tauto]). reflexivity.
  - rewrite Eu. reflexivity.
  - eapply Hc. exact Eu.
  - frees.
Qed.
Print Assumptions C33_query_user_at_host.

(** a bare host is asked about the account "acct:host" (tests/test_08_webfinger.py 26) *)
Theorem C33_query_bare_host : forall nok host, host <> "" -> (forall c r, host = String c r -> ~ In c (la "=@!")) ->
  free_of "@/?#:" host ->
  query nok host = Ok (wf_request host ("acct:" ++ host)).
Proof.
  intros nok host Hn Hc Hh. destruct host as [|c0 u0] eqn:Eu; [congruence|]. rewrite <- Eu in *.
  rewrite query_eq, (locate_plain nok host c0 u0 Eu).
  - change "@" with (String "@" "") at 1. rewrite contains_char, (free_char _ _ "@"%char Hh) by (cbn; tauto). reflexivity.
  - eapply Hc. exact Eu.
  - frees.
Qed.
Print Assumptions C33_query_bare_host.

(** identifiers that are refused: no query is made *)
Theorem C33_query_refusals : forall nok,
  query nok "" = Err IndexError /\
  (forall c r, In c (la "=@!") -> query nok (String c r) = Err ValueError) /\
  (forall s path q f, In s ["http"; "https"] -> free_of "?#" path -> starts_with "//" path = false ->
     free_of "#" q -> free_of "" f ->
     query nok (s ++ ":" ++ path ++ opt "?" q ++ opt "#" f) = Err ValueError) /\
  (forall path q f, free_of "@?#" path -> starts_with "//" path = false -> free_of "#" q -> free_of "" f ->
     query nok ("acct:" ++ path ++ opt "?" q ++ opt "#" f) = Err ValueError).
Proof.
  intros nok. split; [reflexivity|]. split.
  { intros c r Hc. rewrite query_eq. unfold locate. apply char_in_In in Hc. now rewrite Hc. }
  assert (Hsplit : forall s path q f, In s ["http"; "https"; "acct"] -> free_of "?#" path -> starts_with "//" path = false ->
     free_of "#" q -> free_of "" f ->
     urlsplit nok (s ++ ":" ++ path ++ opt "?" q ++ opt "#" f) = Ok (mkparts s "" path q f)).
  { intros s path q f Hs Hp Hd Hq Hf. unfold urlsplit.
    assert (Hfree : free_of "" (s ++ ":" ++ path ++ opt "?" q ++ opt "#" f)).
    { apply free_app. split; [destruct Hs as [<-|[<-|[<-|[]]]]; apply free_all; reflexivity|]. frees. }
    rewrite (free_filter _ _ Hfree).
    assert (Es : split_scheme (s ++ ":" ++ path ++ opt "?" q ++ opt "#" f) = (s, (path ++ opt "?" q ++ opt "#" f)%string))
      by (destruct Hs as [<-|[<-|[<-|[]]]]; apply split_scheme_app; discriminate || reflexivity).
    rewrite Es. unfold split_netloc.
    assert (Hd2 : starts_with "//" (path ++ opt "?" q ++ opt "#" f) = false).
    { destruct path as [|a path].
      - unfold opt. destruct (q =?s ""), (f =?s ""); reflexivity.
      - cbn [append starts_with] in *. destruct (Ascii.eqb "/" a); [|reflexivity].
        cbn [andb] in *. destruct path as [|b path]; [|exact Hd].
        unfold opt. destruct (q =?s ""), (f =?s ""); reflexivity. }
    rewrite Hd2. change (brackets_ok "" && (("" =?s "") || nok "")) with true. cbv iota.
    destruct (cut_tail path q f Hp Hq Hf) as [E1 E2]. now rewrite E1, E2. }
  split.
  - intros s path q f Hs Hp Hd Hq Hf. rewrite query_eq.
    assert (Hs3 : In s ["http"; "https"; "acct"]) by (cbn in *; tauto).
    unfold locate. rewrite (Hsplit s path q f Hs3 Hp Hd Hq Hf).
    destruct Hs as [<-|[<-|[]]]; reflexivity.
  - intros path q f Hp Hd Hq Hf. rewrite query_eq.
    assert (Hp2 : free_of "?#" path) by (eapply free_sub; [|exact Hp]; cbn; tauto).
    change ("acct:" ++ path ++ opt "?" q ++ opt "#" f)%string with ("acct" ++ ":" ++ path ++ opt "?" q ++ opt "#" f)%string.
    unfold locate. rewrite (Hsplit "acct" path q f (or_intror (or_intror (or_introl eq_refl))) Hp2 Hd Hq Hf).
    cbn [append]. cbv iota beta. change (char_in "a" "=@!") with false. cbv iota. cbn [rbind u_scheme u_netloc u_path].
    change ("acct" =?s "") with false. change (mem_str "acct" ["http"; "https"; "acct"]) with true.
    change (mem_str "acct" ["http"; "https"]) with false. change ("acct" =?s "acct") with true. cbn [negb andb]. 
    replace (contains "@" (before "?" (before "/" path))) with false; [reflexivity|].
    symmetry. change "@" with (String "@" ""). rewrite contains_char.
    pose proof (free_char _ _ "@"%char Hp ltac:(cbn; tauto)) as Hat.
    destruct (before_spec "/" path) as [t1 [Ht1 _]]. destruct (before_spec "?" (before "/" path)) as [t2 [Ht2 _]].
    destruct (char_in "@" (before "?" (before "/" path))) eqn:E; [|reflexivity].
    rewrite Ht1, Ht2, !char_in_app, E in Hat. discriminate Hat.
Qed.
Print Assumptions C33_query_refusals.

(** the request: the caller's resource, else the keyword argument, else the configuration *)
Theorem C33_resource_precedence : forall nok args kwargs conf url,
  webfinger_request nok args kwargs conf = Ok url ->
  exists r, query nok r = Ok url /\
    (dget "resource" args = Some (VStr r) \/
     dget "resource" args = None /\ dget "resource" kwargs = Some (VStr r) \/
     dget "resource" args = None /\ dget "resource" kwargs = None /\ dget "resource" conf = Some (VStr r)).
Proof.
  intros nok args kwargs conf url. unfold webfinger_request.
  destruct (dget "resource" args) as [v|]; [|destruct (dget "resource" kwargs) as [v|]; [|destruct (dget "resource" conf) as [v|]]];
    try discriminate; destruct v; try discriminate; intros H; eexists; split; eauto 8.
Qed.
Print Assumptions C33_resource_precedence.

(** ** the answer *)
Definition link (rel href : val) (l : val) : Prop :=
  exists d, l = VDict d /\ dget "rel" d = Some rel /\ dget "href" d = Some href.
Definition other_rel (rel : string) (l : val) : Prop :=
  exists d v, l = VDict d /\ dget "rel" d = Some v /\ v <> VStr rel.
(** http links are allowed in the configuration of the service *)
Definition http_ok (conf : dict val) : Prop :=
  exists a v, dget "allow" conf = Some (VDict a) /\ dget "http_links" a = Some v /\ truthy v = true.

Lemma http_allowed_ok conf : http_allowed conf = Ok true <-> http_ok conf.
Proof.
  unfold http_allowed, http_ok. destruct (dget "allow" conf) as [v|].
  2:{ split; [discriminate|intros [a [v [H _]]]; discriminate]. }
  destruct v as [| | | | |d]; try (split; [discriminate|intros [a [v [H _]]]; discriminate]).
  unfold otruthy. destruct (dget "http_links" d) as [w|] eqn:E.
  - split.
    + intros H. injection H as H. eauto.
    + intros [a [v [H1 [H2 H3]]]]. injection H1 as <-. rewrite E in H2. injection H2 as <-. now rewrite H3.
  - split; [discriminate|]. intros [a [v [H1 [H2 _]]]]. injection H1 as <-. congruence.
Qed.
Lemma pick_link_inv rel conf l o : pick_link rel conf l = Ok o ->
  match o with
  | None => Forall (other_rel rel) l
  | Some h => exists pre x post, l = pre ++ x :: post /\ Forall (other_rel rel) pre /\ link (VStr rel) (VStr h) x /\
                (starts_with "http://" h = true -> http_ok conf)
  end.
Proof.
  induction l as [|x l IH]; cbn [pick_link]. { intros H. injection H as <-. constructor. }
  destruct x as [| | | | |d]; try discriminate. unfold dict_get at 1.
  destruct (dget "rel" d) as [lr|] eqn:Er; cbn [rbind]; [|discriminate].
  destruct (val_eqb lr (VStr rel)) eqn:Ee.
  - apply val_eqb_eq in Ee. subst lr. unfold dict_get. destruct (dget "href" d) as [h|] eqn:Eh; cbn [rbind]; [|discriminate].
    destruct (http_allowed conf) as [al|e] eqn:Ea; cbn [rbind]; [|discriminate].
    destruct h as [| | |h| |]; try discriminate.
    destruct (starts_with "http://" h && negb al) eqn:Eb; [discriminate|].
    intros H. injection H as <-. exists [], (VDict d), l. split; [reflexivity|]. split; [constructor|].
    split; [exists d; auto|]. intros Hs. rewrite Hs in Eb. destruct al; [|discriminate Eb].
    now apply http_allowed_ok.
  - assert (Hne : lr <> VStr rel) by (intros E; apply val_eqb_eq in E; congruence).
    intros H. specialize (IH H). destruct o as [h|].
    + destruct IH as [pre [x [post [-> [H1 H2]]]]]. exists (VDict d :: pre), x, post. split; [reflexivity|].
      split; [constructor; [exists d, lr; auto|exact H1]|exact H2].
    + constructor; [exists d, lr; auto|exact IH].
Qed.

(** the relation looked for: the configured one, else OpenID Connect's issuer relation *)
Definition wanted_relation (rel : string) : string :=
  if rel =?s "" then "http://openid.net/specs/connect/1.0/issuer" else rel.
(** Only the issuer changes, and only to the href of the first link with the wanted
    relation, which is not an http link unless these are allowed; every failure leaves
    the context as it was. *)
Theorem C33_issuer_from_first_matching_link : forall rel conf resp c res c',
  update_webfinger rel conf resp c = (res, c') ->
  c' = c \/
  res = Ok tt /\ exists pre l post h, dget "links" resp = Some (VList (pre ++ l :: post)) /\
    Forall (other_rel (wanted_relation rel)) pre /\ link (VStr (wanted_relation rel)) (VStr h) l /\
    (starts_with "http://" h = true -> http_ok conf) /\ c' = set_issuer h c.
Proof.
  intros rel conf resp c res c'. unfold update_webfinger.
  destruct (dget "links" resp) as [v|]; [|intros H; injection H as <- <-; now left].
  destruct (iter_val v) as [l|e] eqn:Ei; cbn [rbind]; [|intros H; injection H as <- <-; now left].
  destruct (pick_link (self_rel rel) conf l) as [o|e] eqn:Ep; [|intros H; injection H as <- <-; now left].
  pose proof (pick_link_inv _ _ _ _ Ep) as Hp. destruct o as [h|]; intros H; injection H as <- <-; [|now left].
  right. split; [reflexivity|]. destruct Hp as [pre [x [post [-> [H1 [H2 H3]]]]]].
  exists pre, x, post, h. split; [|auto].
  destruct v as [| | |s|l'|d]; cbn [iter_val] in Ei; try discriminate; injection Ei as Ei.
  - (* the characters of a string are not links *)
    exfalso. assert (Hx : In x (chars s)) by (rewrite Ei; apply in_or_app; right; now left).
    destruct H2 as [d [-> _]]. clear - Hx. induction s as [|a s IH]; cbn [chars] in Hx; [exact Hx|].
    destruct Hx as [Hx|Hx]; [discriminate|auto].
  - now rewrite Ei.
  - exfalso. assert (Hx : In x (map VStr (dkeys d))) by (rewrite Ei; apply in_or_app; right; now left).
    destruct H2 as [d' [-> _]]. apply in_map_iff in Hx. destruct Hx as [k [Hk _]]. discriminate.
Qed.
Print Assumptions C33_issuer_from_first_matching_link.

Lemma pick_link_skip rel conf pre l : Forall (other_rel rel) pre -> pick_link rel conf (pre ++ l) = pick_link rel conf l.
Proof.
  induction 1 as [|x pre [d [v [-> [H1 H2]]]] _ IH]; [reflexivity|]. cbn [app pick_link]. unfold dict_get at 1.
  rewrite H1. cbn [rbind]. destruct (val_eqb v (VStr rel)) eqn:E; [apply val_eqb_eq in E; congruence|exact IH].
Qed.

(** An answer whose first issuer link is not an http link is adopted; an http link is
    refused with ValueError unless allowed; an answer without links is refused; an answer
    without an issuer link changes nothing. *)
Theorem C33_answers : forall rel conf resp c,
  (forall a, dget "allow" conf = Some a -> exists d, a = VDict d) ->
  (dget "links" resp = None -> update_webfinger rel conf resp c = (Err MissingRequiredAttribute, c)) /\
  (forall pre l post h, dget "links" resp = Some (VList (pre ++ l :: post)) ->
     Forall (other_rel (wanted_relation rel)) pre -> link (VStr (wanted_relation rel)) (VStr h) l ->
     (starts_with "http://" h = false \/ http_ok conf -> update_webfinger rel conf resp c = (Ok tt, set_issuer h c)) /\
     (starts_with "http://" h = true -> ~ http_ok conf -> update_webfinger rel conf resp c = (Err ValueError, c))) /\
  (forall l, dget "links" resp = Some (VList l) -> Forall (other_rel (wanted_relation rel)) l ->
     update_webfinger rel conf resp c = (Ok tt, c)).
Proof.
  change wanted_relation with self_rel.
  intros rel conf resp c Hal.
  assert (Ha : exists b, http_allowed conf = Ok b).
  { unfold http_allowed. destruct (dget "allow" conf) as [a|]; [|eauto]. destruct (Hal a eq_refl) as [d ->]. eauto. }
  destruct Ha as [b Hb].
  split; [intros H; unfold update_webfinger; now rewrite H|]. split.
  - intros pre l post h Hl Hpre [d [-> [Hr Hh]]].
    assert (Hp : update_webfinger rel conf resp c =
                 if starts_with "http://" h && negb b then (Err ValueError, c) else (Ok tt, set_issuer h c)).
    { unfold update_webfinger. rewrite Hl. cbn [iter_val rbind]. rewrite (pick_link_skip _ _ _ _ Hpre).
      cbn [pick_link]. unfold dict_get. rewrite Hr, Hh. cbn [rbind].
      assert (E : val_eqb (VStr (self_rel rel)) (VStr (self_rel rel)) = true) by now apply val_eqb_eq.
      rewrite E, Hb. cbn [rbind]. now destruct (starts_with "http://" h && negb b). }
    rewrite Hp. split.
    + intros [->|Hok]; [reflexivity|]. apply http_allowed_ok in Hok. rewrite Hb in Hok. injection Hok as ->.
      now rewrite andb_false_r.
    + intros -> Hno. destruct b; [|reflexivity]. apply http_allowed_ok in Hb. contradiction.
  - intros l Hl Hall. unfold update_webfinger. rewrite Hl. cbn [iter_val rbind].
    rewrite <- (app_nil_r l), (pick_link_skip _ _ _ _ Hall). reflexivity.
Qed.
Print Assumptions C33_answers.

(** ** findings *)
(** the scheme check is a literal comparison with "http://": an upper-case HTTP link, or
    any other scheme, is adopted as the issuer although http links are not allowed *)
Theorem C33_only_https_refuted : ~ (forall resp c c',
  update_webfinger "" [] resp c = (Ok tt, c') -> c' = c \/ starts_with "https://" (issuer c') = true).
Proof.
  intros H. specialize (H [("links", VList [VDict [("rel", VStr OIC_ISSUER); ("href", VStr "HTTP://op.example")]])] empty_ctx
    (set_issuer "HTTP://op.example" empty_ctx) eq_refl).
  destruct H as [H|H]; [apply (f_equal issuer) in H; discriminate H|discriminate H].
Qed.
Print Assumptions C33_only_https_refuted.
(** an identifier such as "?q" or "user@" gives a query URL without a host *)
Theorem C33_host_nonempty_refuted : ~ (forall nok r url, query nok r = Ok url -> starts_with "https:///" url = false).
Proof. intros H. specialize (H any_host "user@" _ eq_refl). discriminate H. Qed.
Print Assumptions C33_host_nonempty_refuted.

(** the hypotheses are met *)
Example c33_nonvacuous :
  free_of "@/?#" "joe" /\ free_of "@/?#" "example.com" /\ path_text "/path" /\ free_of "#" "query" /\
  host_text "joe@example.com:8080" /\ brackets_ok "joe@example.com:8080" = true /\
  Forall (not_scheme "example.com:8080/path") ["http"; "https"; "acct"] /\ starts_with "//" "/path" = false /\
  In ":"%char (la "example.com:8080").
Proof.
  repeat apply conj; try (apply free_all; reflexivity); try reflexivity; try (right; now exists "path");
    repeat constructor; apply char_in_In; reflexivity.
Qed.
Example c33_answer_nonvacuous :
  update_webfinger "" [] [("links", VList [VDict [("rel", VStr "other"); ("href", VStr "https://x")];
     VDict [("rel", VStr OIC_ISSUER); ("href", VStr "https://op.example")]])] empty_ctx = (Ok tt, set_issuer "https://op.example" empty_ctx) /\
  update_webfinger "" [] [("links", VList [VDict [("rel", VStr OIC_ISSUER); ("href", VStr "http://op.example")]])] empty_ctx
  = (Err ValueError, empty_ctx) /\
  update_webfinger "" [("allow", VDict [("http_links", VBool true)])]
     [("links", VList [VDict [("rel", VStr OIC_ISSUER); ("href", VStr "http://op.example")]])] empty_ctx
  = (Ok tt, set_issuer "http://op.example" empty_ctx).
Proof. repeat split; reflexivity. Qed.
