(** Property theorems C65: the Set-Cookie headers the package gives out.
    Model in M_CookieHdr.v, the reader of the header in S_CookieHdr.v. *)
From Verif Require Import Base BaseP Json Msg M_Codec M_Cookie S_Cookie P_Cookie M_CookieHdr S_CookieHdr T_Cookie.

(** the characters of a quoted value *)
Definition quoted_char (c : ascii) : bool := ck_plain c || Ascii.eqb c dquote || Ascii.eqb c bslash || is_digit c.
Lemma octal_digit n : n < 8 -> is_digit (octal n) = true.
Proof. intros H. do 8 (destruct n as [|n]; [reflexivity|]). lia. Qed.
Lemma esc_chars c : all_chars quoted_char (ck_esc c) = true.
Proof.
  unfold ck_esc. destruct (ck_plain c) eqn:P; [cbn [all_chars]; unfold quoted_char; now rewrite P|].
  destruct (Ascii.eqb c dquote || Ascii.eqb c bslash) eqn:Q.
  - cbn [all_chars]. unfold quoted_char. change (ck_plain bslash) with false. change (Ascii.eqb bslash dquote) with false.
    change (Ascii.eqb bslash bslash) with true. change (is_digit bslash) with false. rewrite P.
    apply Bool.orb_true_iff in Q. destruct Q as [Q|Q]; rewrite Q; cbn; now rewrite ?Bool.orb_true_r.
  - cbn [all_chars]. unfold quoted_char. change (Ascii.eqb bslash bslash) with true. rewrite !Bool.orb_true_r. cbn [orb andb].
    assert (A : nat_of_ascii c / 64 < 8). { pose proof (nat_ascii_bounded c). apply Nat.div_lt_upper_bound; lia. }
    rewrite (octal_digit _ A), (octal_digit ((nat_of_ascii c / 8) mod 8)), (octal_digit (nat_of_ascii c mod 8)) by (apply Nat.mod_upper_bound; lia).
    now rewrite !Bool.orb_true_r.
Qed.
Lemma escs_chars s : all_chars quoted_char (ck_escs s) = true.
Proof. induction s as [|c r IH]; [reflexivity|]. cbn [ck_escs]. now rewrite all_chars_app, esc_chars, IH. Qed.
Lemma all_chars_imp (f g : ascii -> bool) s : (forall c, f c = true -> g c = true) -> all_chars f s = true -> all_chars g s = true.
Proof. intros H. induction s as [|c r IH]; [reflexivity|]. cbn. intros X. apply andb_prop in X. destruct X as [A B]. now rewrite (H c A), (IH B). Qed.
Lemma quote_chars s : all_chars quoted_char (ck_quote s) = true.
Proof.
  unfold ck_quote. destruct (all_chars ck_legal s && _) eqn:E.
  - apply andb_prop in E. destruct E as [E _]. revert E. apply all_chars_imp. intros c H. unfold quoted_char, ck_plain. now rewrite H.
  - rewrite !all_chars_app, escs_chars. reflexivity.
Qed.
Lemma not_in_all (f : ascii -> bool) c s : f c = false -> all_chars f s = true -> char_in c s = false.
Proof.
  intros F. induction s as [|d r IH]; [reflexivity|]. cbn. intros X. apply andb_prop in X. destruct X as [A B]. rewrite (IH B).
  destruct (Ascii.eqb_spec c d) as [->|]; [congruence|reflexivity].
Qed.
Lemma value_clean c E now iv load seed ts k : quoted_char c = false -> char_in c (make_cookie E now iv load seed ts k) = false.
Proof. intros Q. unfold make_cookie. eapply not_in_all; [exact Q|apply quote_chars]. Qed.
Lemma name_clean c name : ck_name_ok name = true -> ck_legal c = false -> char_in c name = false.
Proof. unfold ck_name_ok. intros H L. apply andb_prop in H. destruct H as [H _]. apply andb_prop in H. destruct H as [_ H]. eapply not_in_all; eauto. Qed.

(** reading back a header made of parts without semicolons *)
Lemma split_semi p ps : forallb (fun w => negb (char_in ";"%char w)) (p :: ps) = true ->
  split_on ";"%char (join "; " (p :: ps)) = p :: map (fun x => String " " x) ps.
Proof.
  intros H. assert (E : forall q qs, join "; " (q :: qs) = join ";" (q :: map (fun x => String " " x) qs)).
  { intros q qs. revert q. induction qs as [|a r IH]; intros q; [reflexivity|]. change (join "; " (q :: a :: r)) with (q ++ "; " ++ join "; " (a :: r))%string.
    rewrite IH. cbn [map join]. destruct r; reflexivity. }
  rewrite E. change ";" with (String ";"%char ""). apply split_join; [discriminate|]. cbn [forallb] in *. apply andb_prop in H. destruct H as [-> H]. cbn [andb].
  clear E. induction ps as [|a r IH]; [reflexivity|]. cbn [map forallb] in *. apply andb_prop in H. destruct H as [A B]. rewrite (IH B).
  cbn [char_in]. change (Ascii.eqb ";" " ") with false. cbn [orb]. now rewrite A.
Qed.

(** C65: whatever the payload, a user agent that reads the header finds one cookie with the
    given name, whose value is read back as the payload, and exactly the attributes asked
    for: nothing in the payload can add or change an attribute. *)
Theorem C65_header_is_read_as_meant : forall E date now iv name load seed ts key a h,
  attr_text (at_domain a) -> attr_text (at_path a) -> attr_text (at_same_site a) -> (forall t, attr_text (date t)) ->
  make_cookie_header E date now iv name load seed ts key a = Ok h ->
  exists v, fst (ua_reads h) = (name, Some v) /\ v = make_cookie E now iv load seed ts key /\
  (forall n x, In (n, x) (snd (ua_reads h)) <->
     (n = "Domain" /\ at_domain a <> "" /\ x = Some (at_domain a)) \/
     (n = "Path" /\ at_path a <> "" /\ x = Some (at_path a)) \/
     (n = "expires" /\ at_expire a <> 0%Z /\ x = Some (date (now + 60 * at_expire a)%Z)) \/
     (n = "Secure" /\ at_secure a = true /\ x = None) \/
     (n = "HttpOnly" /\ at_http_only a = true /\ x = None) \/
     (n = "SameSite" /\ at_same_site a <> "" /\ x = Some (at_same_site a))).
Proof.
  intros E date now iv name load seed ts key a h HD HP HS HT. unfold make_cookie_header.
  destruct (ck_name_ok name) eqn:N; [|discriminate]. intros H. exists (make_cookie E now iv load seed ts key).
  assert (C : forallb (fun w => negb (char_in ";"%char w)) ((name ++ "=" ++ make_cookie E now iv load seed ts key)%string :: ck_attributes date now a) = true).
  { cbn [forallb]. rewrite !char_in_app, (name_clean _ _ N), value_clean by reflexivity. cbn [char_in orb negb andb Ascii.eqb Bool.eqb].
    unfold ck_attributes. rewrite !forallb_app. unfold opt_attr, attr_text in *.
    repeat (apply andb_true_intro; split); match goal with |- forallb _ (if ?b then _ else _) = true => destruct b; [|reflexivity] end;
      cbn [forallb]; rewrite ?char_in_app, ?HD, ?HP, ?HS, ?HT; reflexivity. }
  assert (RH : ua_reads h = (name_value (name ++ "=" ++ make_cookie E now iv load seed ts key)%string,
      map name_value (map no_leading_space (map (fun x => String " " x) (ck_attributes date now a))))).
  { assert (Hh : h = join "; " ((name ++ "=" ++ make_cookie E now iv load seed ts key)%string :: ck_attributes date now a)) by congruence.
    rewrite Hh. unfold ua_reads. rewrite split_semi by exact C. f_equal. now rewrite !map_map. }
  rewrite RH. cbn [fst snd]. clear H RH C. split.
  - unfold name_value. assert (S1 : split1 "="%char (name ++ String "=" (make_cookie E now iv load seed ts key))%string = Some (name, make_cookie E now iv load seed ts key)).
    { apply split1_Some. split; [reflexivity|]. now apply name_clean. }
    cbn [append]. now rewrite S1.
  - split; [reflexivity|]. intros n x.
    assert (NV : forall m v, char_in "="%char m = false -> name_value (m ++ String "=" v)%string = (m, Some v)).
    { intros m v M. unfold name_value. now rewrite (proj2 (split1_Some _ _ m v) (conj eq_refl M)). }
    rewrite !map_map. unfold ck_attributes. rewrite !map_app, !in_app_iff.
    assert (B : forall (b : bool) t m y, name_value (no_leading_space (String " " t)) = (m, y) ->
       (In (n, x) (map (fun z => name_value (no_leading_space (String " " z))) (opt_attr b t)) <-> (n = m /\ b = true /\ x = y))).
    { intros b t m y T. unfold opt_attr. destruct b; cbn [map In].
      - cbn [no_leading_space] in *. rewrite T. split; [intros [X|[]]; injection X as <- <-; auto|intros (-> & _ & ->); now left].
      - split; [intros []|intros (_ & X & _); discriminate]. }
    rewrite (B _ _ "Domain" (Some (at_domain a))) by (apply (NV "Domain"); reflexivity).
    rewrite (B _ _ "expires" (Some (date (now + 60 * at_expire a)%Z))) by (apply (NV "expires"); reflexivity).
    rewrite (B _ _ "HttpOnly" None) by reflexivity.
    rewrite (B _ _ "Path" (Some (at_path a))) by (apply (NV "Path"); reflexivity).
    rewrite (B _ _ "SameSite" (Some (at_same_site a))) by (apply (NV "SameSite"); reflexivity).
    rewrite (B _ _ "Secure" None) by reflexivity.
    assert (NE : forall s, negb (s =?s "") = true <-> s <> "").
    { intros s. split; intros X; [intros ->; discriminate|]. now rewrite (eqb_neq s "" X). }
    rewrite !NE. assert (ZE : negb (at_expire a =? 0)%Z = true <-> at_expire a <> 0%Z).
    { destruct (Z.eqb_spec (at_expire a) 0); cbn; split; congruence. }
    rewrite ZE. tauto.
Qed.
Print Assumptions C65_header_is_read_as_meant.

(** C65: the header is one line, so no payload can add another header. *)
Theorem C65_header_is_one_line : forall E date now iv name load seed ts key a h,
  one_line (at_domain a) -> one_line (at_path a) -> one_line (at_same_site a) -> (forall t, one_line (date t)) ->
  make_cookie_header E date now iv name load seed ts key a = Ok h -> one_line h.
Proof.
  intros E date now iv name load seed ts key a h HD HP HS HT. unfold make_cookie_header.
  destruct (ck_name_ok name) eqn:N; [|discriminate].
  assert (J : forall c ps, c <> ";"%char -> c <> " "%char -> Forall (fun p => char_in c p = false) ps -> char_in c (join "; " ps) = false).
  { intros c ps C1 C2. induction 1 as [|p r X F IH]; [reflexivity|]. destruct r as [|q r]; [exact X|].
    change (join "; " (p :: q :: r)) with (p ++ "; " ++ join "; " (q :: r))%string. rewrite !char_in_app, X, IH. cbn [char_in].
    destruct (Ascii.eqb_spec c ";"); [contradiction|]. destruct (Ascii.eqb_spec c " "); [contradiction|]. reflexivity. }
  assert (G : forall c, c <> ";"%char -> c <> " "%char -> quoted_char c = false -> ck_legal c = false -> c <> "="%char ->
     (forall l, In l ["Domain="; "expires="; "HttpOnly"; "Path="; "SameSite="; "Secure"] -> char_in c l = false) ->
     char_in c (at_domain a) = false -> char_in c (at_path a) = false -> char_in c (at_same_site a) = false -> (forall t, char_in c (date t) = false) ->
     char_in c (join "; " ((name ++ "=" ++ make_cookie E now iv load seed ts key)%string :: ck_attributes date now a)) = false).
  { intros c C1 C2 C3 C4 C5 L D P S T. apply J; [exact C1|exact C2|]. constructor.
    - rewrite !char_in_app, (name_clean _ _ N C4), (value_clean _ _ _ _ _ _ _ _ C3). cbn [char_in]. destruct (Ascii.eqb_spec c "="); [contradiction|reflexivity].
    - unfold ck_attributes, opt_attr. repeat (apply Forall_app; split);
        match goal with |- Forall _ (if ?b then _ else _) => destruct b; constructor; [|constructor] end;
        rewrite ?char_in_app, ?D, ?P, ?S, ?T, ?Bool.orb_false_r; apply L; cbn; auto 10. }
  intros H. assert (Hh : h = join "; " ((name ++ "=" ++ make_cookie E now iv load seed ts key)%string :: ck_attributes date now a)) by congruence.
  rewrite Hh. unfold one_line in *. split; apply G; try discriminate; try tauto; try reflexivity;
    try (intros t; apply (HT t)); cbn; intros l [<-|[<-|[<-|[<-|[<-|[<-|[]]]]]]]; reflexivity.
Qed.
Print Assumptions C65_header_is_one_line.

(** minutes until the cookie of create_cookie goes stale *)
Definition minutes (D : ck_dealer) (ttl : Z) : Z := if (ttl <? 0)%Z then dl_ttl D else ttl.
Definition used_name (D : ck_dealer) (n : option string) : string := match n with Some x => x | None => dl_name D end.
Lemma dealer_header E date D now iv v y n ttl kill h :
  attr_text (dl_domain D) -> attr_text (dl_path D) -> (forall t, attr_text (date t)) ->
  create_cookie_header E date D now iv v y n ttl kill = Ok h ->
  fst (ua_reads h) = (used_name D n, Some (create_cookie E (dl_srv D) now iv v y)) /\
  forall a x, In (a, x) (snd (ua_reads h)) <->
    (a = "Domain" /\ dl_domain D <> "" /\ x = Some (dl_domain D)) \/
    (a = "Path" /\ dl_path D <> "" /\ x = Some (dl_path D)) \/
    (a = "expires" /\ (if kill then (-1)%Z else minutes D ttl) <> 0%Z /\ x = Some (date (now + 60 * (if kill then (-1)%Z else minutes D ttl))%Z)) \/
    (a = "Secure" /\ x = None) \/ (a = "HttpOnly" /\ x = None).
Proof.
  intros HD HP HT H. unfold create_cookie_header in H.
  pose proof (C65_header_is_read_as_meant _ _ _ _ _ _ _ _ _ (mkattrs (if kill then (-1)%Z else if (ttl <? 0)%Z then dl_ttl D else ttl) (dl_domain D) (dl_path D) true true "") _ HD HP eq_refl HT H) as X.
  destruct X as (w & E1 & E2 & A).
  cbn [at_domain at_path at_expire at_secure at_http_only at_same_site] in A. subst w. split; [exact E1|].
  intros a x. rewrite A. unfold minutes. destruct kill; intuition congruence.
Qed.
(** C65: every cookie of a CookieDealer is sent over secure connections only and hidden from
    scripts; it has the server's domain and path, and goes stale after the given number of
    minutes, or the dealer's if none is given; its value reads back. *)
Theorem C65_dealer_cookie : forall E date D now iv v y n ttl h,
  attr_text (dl_domain D) -> attr_text (dl_path D) -> (forall t, attr_text (date t)) ->
  create_cookie_header E date D now iv v y n ttl false = Ok h ->
  (exists raw, fst (ua_reads h) = (used_name D n, Some raw) /\
     ((0 <= now)%Z -> well_formed (mkcreated v now y) ->
      (srv_symkey (dl_srv D) = "" -> char_in "|"%char v = false /\ char_in "|"%char y = false) ->
      (forall key i p a, ck_dec E key i (ck_enc E key i p a) a = Some p) ->
      get_cookie_value E (dl_srv D) [(used_name D n, raw)] (used_name D n) = Ok (Some (v, z_str now, y)))) /\
  In ("Secure", None) (snd (ua_reads h)) /\ In ("HttpOnly", None) (snd (ua_reads h)) /\
  (dl_domain D <> "" -> In ("Domain", Some (dl_domain D)) (snd (ua_reads h))) /\
  (dl_path D <> "" -> In ("Path", Some (dl_path D)) (snd (ua_reads h))) /\
  (forall m, m = (if (ttl <? 0)%Z then dl_ttl D else ttl) -> m <> 0%Z ->
     forall x, In ("expires", x) (snd (ua_reads h)) <-> x = Some (date (now + 60 * m)%Z)).
Proof.
  intros E date D now iv v y n ttl h HD HP HT H. destruct (dealer_header _ _ _ _ _ _ _ _ _ _ _ HD HP HT H) as [F A]. split.
  - eexists. split; [exact F|]. intros T W B C. apply C24_dealer_reads_back with (iv := iv); auto. cbn. now rewrite String.eqb_refl.
  - split; [rewrite A; auto 10|]. split; [rewrite A; auto 10|]. split; [intros X; rewrite A; auto|]. split; [intros X; rewrite A; auto|].
    intros m M M0 x. split.
    + intros X. apply A in X. destruct X as [(X & _)|[(X & _)|[(_ & _ & ->)|[(X & _)|(X & _)]]]]; try discriminate. now subst m.
    + intros ->. apply A. right. right. left. subst m. auto.
Qed.
Print Assumptions C65_dealer_cookie.
(** C65: delete_cookie gives a cookie of the same name, domain and path as create_cookie does,
    so that it replaces it, and that is stale already. *)
Theorem C65_deleted_cookie : forall E date D now now' iv iv' v y n ttl h h',
  attr_text (dl_domain D) -> attr_text (dl_path D) -> (forall t, attr_text (date t)) ->
  create_cookie_header E date D now iv v y n ttl false = Ok h -> delete_cookie_header E date D now' iv' n = Ok h' ->
  fst (fst (ua_reads h')) = fst (fst (ua_reads h)) /\
  (forall a x, a = "Domain" \/ a = "Path" -> (In (a, x) (snd (ua_reads h')) <-> In (a, x) (snd (ua_reads h)))) /\
  exists t, (t < now')%Z /\ forall x, In ("expires", x) (snd (ua_reads h')) <-> x = Some (date t).
Proof.
  intros E date D now now' iv iv' v y n ttl h h' HD HP HT H H'. unfold delete_cookie_header in H'.
  destruct (dealer_header _ _ _ _ _ _ _ _ _ _ _ HD HP HT H) as [F A]. destruct (dealer_header _ _ _ _ _ _ _ _ _ _ _ HD HP HT H') as [F' A'].
  rewrite F, F'. split; [reflexivity|]. split.
  - intros a x Ha. rewrite A, A'. destruct Ha as [-> | ->]; intuition discriminate.
  - exists (now' + 60 * (-1))%Z. split; [lia|]. intros x. rewrite A'. split.
    + intros [(X & _)|[(X & _)|[(_ & _ & X)|[(X & _)|(X & _)]]]]; try discriminate. exact X.
    + intros ->. right. right. left. split; [reflexivity|]. split; [discriminate|reflexivity].
Qed.
Print Assumptions C65_deleted_cookie.

(** A lifetime of no minutes is not "stale at once": the cookie has no expiry at all.  And no
    cookie of a CookieDealer says for which requests from other sites it may be sent. *)
Definition hx_dealer : ck_dealer := mkdealer (mksrv "seed" "") "rp" "" "/app" 5.
Definition hx_env : cookie_env := mkck (fun _ _ => "digest") (fun _ => "") (fun _ _ p _ => p) (fun _ _ c _ => Some c).
Definition hx_date (t : Z) : string := ("T" ++ z_str t)%string.
Theorem C65_zero_minutes_refuted : exists E date D now iv v y n h,
  create_cookie_header E date D now iv v y n 0 false = Ok h /\ forall x, ~ In ("expires", x) (snd (ua_reads h)).
Proof.
  exists hx_env, hx_date, hx_dealer, 1000%Z, "iv", "user", "session", None. eexists. split; [vm_compute; reflexivity|].
  intros x H. vm_compute in H. repeat (destruct H as [H|H]; [discriminate|]). exact H.
Qed.
Print Assumptions C65_zero_minutes_refuted.
Theorem C65_same_site_refuted : forall E date D now iv v y n ttl kill h x,
  attr_text (dl_domain D) -> attr_text (dl_path D) -> (forall t, attr_text (date t)) ->
  create_cookie_header E date D now iv v y n ttl kill = Ok h -> ~ In ("SameSite", x) (snd (ua_reads h)).
Proof.
  intros E date D now iv v y n ttl kill h x HD HP HT H. destruct (dealer_header _ _ _ _ _ _ _ _ _ _ _ HD HP HT H) as [_ A].
  rewrite A. intuition discriminate.
Qed.
Print Assumptions C65_same_site_refuted.
(** C65 needs a clean domain and path: they are written as they are. *)
Theorem C65_any_domain_refuted : exists E date now iv name load seed ts key a h,
  make_cookie_header E date now iv name load seed ts key a = Ok h /\ at_secure a = false /\ In ("Secure", None) (snd (ua_reads h)).
Proof.
  exists hx_env, hx_date, 1000%Z, "iv", "n", "l", "s", "1000", "", (mkattrs 0 "x.example; Secure" "" false true ""). eexists.
  split; [vm_compute; reflexivity|]. split; [reflexivity|]. vm_compute. right. now left.
Qed.
Print Assumptions C65_any_domain_refuted.

(** A payload full of separators, and its deletion *)
Example C65_ex : attr_text (dl_domain hx_dealer) /\ attr_text (dl_path hx_dealer) /\ (forall t, attr_text (hx_date t)) /\
  exists h h', create_cookie_header hx_env hx_date hx_dealer 1000 "iv" "a; Domain=evil" "x,y" None (-1) false = Ok h /\
    delete_cookie_header hx_env hx_date hx_dealer 1000 "iv" None = Ok h' /\
    snd (ua_reads h) = [("expires", Some "T1300"); ("HttpOnly", None); ("Path", Some "/app"); ("Secure", None)] /\
    snd (ua_reads h') = [("expires", Some "T940"); ("HttpOnly", None); ("Path", Some "/app"); ("Secure", None)] /\
    fst (fst (ua_reads h)) = "rp".
Proof.
  split; [reflexivity|]. split; [reflexivity|]. split.
  - intros t. unfold attr_text, hx_date. rewrite char_in_app. cbn [char_in Ascii.eqb Bool.eqb orb].
    destruct t as [|p|p].
    + reflexivity.
    + apply (not_in_all is_digit); [reflexivity|]. now apply z_str_digits.
    + change (z_str (Z.neg p)) with (String "-" (z_str (Z.pos p))). cbn [char_in Ascii.eqb Bool.eqb orb].
      apply (not_in_all is_digit); [reflexivity|]. now apply z_str_digits.
  - do 2 eexists. split; [vm_compute; reflexivity|]. split; [vm_compute; reflexivity|]. repeat split; vm_compute; reflexivity.
Qed.
