(** Property theorems C24: cookies.  Model in M_Cookie.v, specification in S_Cookie.v. *)
From Verif Require Import Base BaseP Json Msg M_Codec P_Codec M_Cookie S_Cookie P_Cookie.
From Coq Require Import DecimalString.


(** ** encodings *)
Theorem C24_value_encoding_roundtrip : forall s, ck_unquote (ck_quote s) = s.
Proof. exact unquote_quote. Qed.
Print Assumptions C24_value_encoding_roundtrip.
(** the constant time comparison is equality *)
Theorem C24_comparison_is_equality : forall a b, safe_str_cmp a b = true <-> a = b.
Proof. exact safe_str_cmp_eq. Qed.
Print Assumptions C24_comparison_is_equality.

(** ** reading back *)
Lemma split_join_strs c ws : ws <> [] -> Forall (fun w => char_in c w = false) ws -> split_on c (join (String c "") ws) = ws.
Proof. intros N F. apply split_join; [exact N|]. rewrite forallb_forall. rewrite Forall_forall in F. intros w I. now rewrite (F w I). Qed.
Lemma split_part c s w : In w (split_on c s) -> char_in c w = false.
Proof.
  revert w. induction s as [|d r IH]; intros w; cbn [split_on].
  - intros [<-|[]]; reflexivity.
  - destruct (Ascii.eqb_spec d c) as [->|N].
    + intros [<-|I]; [reflexivity|now apply IH].
    + destruct (split_on c r) as [|h t] eqn:Es; intros [<-|I].
      * cbn [char_in]. destruct (Ascii.eqb_spec c d); [congruence|reflexivity].
      * destruct I.
      * cbn [char_in]. destruct (Ascii.eqb_spec c d); [congruence|]. cbn. apply IH. now left.
      * apply IH. now right.
Qed.
Lemma concat2 a b : String.concat "" [a; b] = (a ++ b)%string.
Proof. reflexivity. Qed.
Lemma parse_unfold E name seed kaka k raw : dget name kaka = Some raw ->
  parse_cookie E name seed kaka k =
  match split_on bar (ck_unquote raw) with
  | [cleartext; timestamp; sig] =>
      if verify_cookie_signature E sig seed [cleartext; timestamp] then Ok (Some (cleartext, timestamp)) else Err InvalidCookieSign
  | [timestamp; b1; b2; b3] =>
      let! iv := b64decode b1 in
      let! ciphertext := b64decode b2 in
      let! tag := b64decode b3 in
      match ck_dec E (make_hashed_key E k seed) iv (ciphertext ++ tag)%string timestamp with
      | Some cleartext => Ok (Some (cleartext, timestamp))
      | None => Err InvalidTag
      end
  | _ => Ok None
  end.
Proof.
  intros D. unfold parse_cookie, cookie_parts. destruct kaka as [|kv r]; [discriminate|]. rewrite D.
  destruct (split_on bar (ck_unquote raw)) as [|a [|b [|c [|d [|]]]]]; reflexivity.
Qed.
Definition stamp (now : Z) (timestamp : string) : string := if timestamp =?s "" then z_str now else timestamp.
Lemma stamp_no_bar now ts : (0 <= now)%Z -> char_in bar ts = false -> char_in bar (stamp now ts) = false.
Proof.
  intros H B. unfold stamp. destruct (ts =?s ""); [|exact B].
  pose proof (z_str_digits now H) as D. induction (z_str now) as [|c r IH]; [reflexivity|]. cbn [all_chars char_in] in *.
  apply andb_prop in D as [D1 D2]. rewrite IH by exact D2. rewrite orb_false_r.
  destruct (Ascii.eqb_spec bar c) as [<-|]; [discriminate|reflexivity].
Qed.
Theorem C24_signed_cookie_reads_back : forall E name now iv load seed ts kaka k, (0 <= now)%Z ->
  char_in "|"%char load = false -> char_in "|"%char ts = false ->
  dget name kaka = Some (make_cookie E now iv load seed ts "") ->
  parse_cookie E name seed kaka k = Ok (Some (load, stamp now ts)).
Proof.
  intros E name now iv load seed ts kaka k H L T D. rewrite (parse_unfold _ _ _ _ _ _ D).
  unfold make_cookie. rewrite unquote_quote. cbn [String.eqb]. fold (stamp now ts).
  change "|" with (String bar ""). rewrite split_join_strs.
  - unfold verify_cookie_signature. assert (V : forall x, safe_str_cmp x x = true) by (intros; now apply safe_str_cmp_eq). now rewrite V.
  - discriminate.
  - repeat constructor; [exact L|now apply stamp_no_bar|apply hexdigest_no_bar].
Qed.
Print Assumptions C24_signed_cookie_reads_back.
Theorem C24_encrypted_cookie_reads_back : forall E name now iv load seed ts kaka k, (0 <= now)%Z -> k <> "" ->
  (forall key i p a, ck_dec E key i (ck_enc E key i p a) a = Some p) ->
  char_in "|"%char ts = false ->
  dget name kaka = Some (make_cookie E now iv load seed ts k) ->
  parse_cookie E name seed kaka k = Ok (Some (load, stamp now ts)).
Proof.
  intros E name now iv load seed ts kaka k H K A T D. rewrite (parse_unfold _ _ _ _ _ _ D).
  unfold make_cookie. rewrite unquote_quote, (eqb_neq _ _ K). fold (stamp now ts).
  change "|" with (String bar ""). rewrite split_join_strs.
  - rewrite !b64decode_enc. cbn [rbind]. rewrite take_drop, A. reflexivity.
  - discriminate.
  - repeat constructor; [now apply stamp_no_bar|apply b64enc_no_bar|apply b64enc_no_bar|apply b64enc_no_bar].
Qed.
Print Assumptions C24_encrypted_cookie_reads_back.

(** ** what is accepted *)
Theorem C24_accepted_means_verified : forall E name seed kaka k p t, parse_cookie E name seed kaka k = Ok (Some (p, t)) ->
  exists raw, dget name kaka = Some raw /\
   (ck_unquote raw = (p ++ "|" ++ t ++ "|" ++ signature E seed p t)%string /\
      char_in "|"%char p = false /\ char_in "|"%char t = false \/
    exists b1 b2 b3 iv ct tag, ck_unquote raw = (t ++ "|" ++ b1 ++ "|" ++ b2 ++ "|" ++ b3)%string /\
      char_in "|"%char t = false /\ char_in "|"%char b1 = false /\ char_in "|"%char b2 = false /\ char_in "|"%char b3 = false /\
      b64decode b1 = Ok iv /\ b64decode b2 = Ok ct /\ b64decode b3 = Ok tag /\
      ck_dec E (derived_key E k seed) iv (ct ++ tag)%string t = Some p).
Proof.
  intros E name seed kaka k p t H. destruct (dget name kaka) as [raw|] eqn:D.
  2:{ unfold parse_cookie, cookie_parts in H. rewrite D in H. destruct kaka; discriminate. }
  exists raw. split; [reflexivity|]. rewrite (parse_unfold _ _ _ _ _ _ D) in H.
  pose proof (join_split bar (ck_unquote raw)) as J. pose proof (split_part bar (ck_unquote raw)) as B. destruct (split_on bar (ck_unquote raw)) as [|a [|b [|c [|d [|]]]]]; try discriminate.
  - left. unfold verify_cookie_signature in H. destruct (safe_str_cmp c (cookie_signature E seed [a; b])) eqn:S; [|discriminate].
    injection H as -> ->. apply safe_str_cmp_eq in S. rewrite signature_eq in S. split; [now rewrite <- J, S|]. split; apply B; cbn; auto.
  - right. destruct (b64decode b) as [iv|] eqn:B1; [|discriminate]. cbn [rbind] in H.
    destruct (b64decode c) as [ct|] eqn:B2; [|discriminate]. cbn [rbind] in H.
    destruct (b64decode d) as [tag|] eqn:B3; [|discriminate]. cbn [rbind] in H.
    destruct (ck_dec E (make_hashed_key E k seed) iv (ct ++ tag)%string a) as [x|] eqn:Dc; [|discriminate]. injection H as -> ->.
    exists b, c, d, iv, ct, tag. split; [now rewrite <- J|]. repeat split; auto; apply B; cbn; auto.
Qed.
Print Assumptions C24_accepted_means_verified.
(** a signed cookie with any other signature is refused with InvalidCookieSign *)
Theorem C24_wrong_signature_refused : forall E name seed kaka k raw p t sig, dget name kaka = Some raw ->
  ck_unquote raw = (p ++ "|" ++ t ++ "|" ++ sig)%string ->
  char_in "|"%char p = false -> char_in "|"%char t = false -> char_in "|"%char sig = false ->
  sig <> signature E seed p t -> parse_cookie E name seed kaka k = Err InvalidCookieSign.
Proof.
  intros E name seed kaka k raw p t sig D U P T S N. rewrite (parse_unfold _ _ _ _ _ _ D), U.
  change (p ++ "|" ++ t ++ "|" ++ sig)%string with (join (String bar "") [p; t; sig]). rewrite split_join_strs; [|discriminate|now repeat constructor].
  unfold verify_cookie_signature. destruct (safe_str_cmp sig (cookie_signature E seed [p; t])) eqn:X; [|reflexivity].
  apply safe_str_cmp_eq in X. rewrite signature_eq in X. contradiction.
Qed.
Print Assumptions C24_wrong_signature_refused.

(** ** the cookie dealer *)
Lemma payload_split x : well_formed x -> split_colons (payload x) = [cr_value x; z_str (cr_now x); cr_type x].
Proof.
  intros (W1 & W2 & W3 & W4). unfold payload. rewrite split_clean by (unfold clean_head, no_colons; unfold colons; now rewrite W1, W2).
  rewrite split_clean.
  - rewrite split_none; [reflexivity|]. unfold no_colons, colons. now rewrite W3.
  - apply no_colon_clean. pose proof (z_str_digits _ W4) as D. induction (z_str (cr_now x)) as [|c r IH]; [reflexivity|].
    cbn [all_chars char_in] in *. apply andb_prop in D as [D1 D2]. rewrite IH by exact D2. rewrite orb_false_r.
    destruct (Ascii.eqb_spec ":"%char c) as [<-|]; [discriminate|reflexivity].
Qed.
Lemma payload_split_more x s : well_formed x ->
  exists l, split_colons (payload x ++ s) = cr_value x :: z_str (cr_now x) :: l.
Proof.
  intros W. pose proof (payload_split x W) as P.
  pose proof (split_colons_app _ (payload x) s [cr_value x; z_str (cr_now x)] (cr_type x) (le_n _) P) as Q.
  rewrite Q. cbn [app]. eauto.
Qed.
Theorem C24_dealer_reads_back : forall E S now iv v y kaka name, (0 <= now)%Z -> well_formed (mkcreated v now y) ->
  (srv_symkey S = "" -> char_in "|"%char v = false /\ char_in "|"%char y = false) ->
  (forall key i p a, ck_dec E key i (ck_enc E key i p a) a = Some p) ->
  dget name kaka = Some (create_cookie E S now iv v y) ->
  get_cookie_value E S kaka name = Ok (Some (v, z_str now, y)).
Proof.
  intros E S now iv v y kaka name H W B A D. unfold get_cookie_value, create_cookie in *.
  assert (Z : z_str now <> "").
  { unfold z_str. intros Z. assert (X : forall u, NilZero.string_of_uint u <> "") by (intros [];discriminate).
    destruct (Z.to_int now); cbn in Z; [now apply X in Z|discriminate]. }
  assert (P : join colons [v; z_str now; y] = payload (mkcreated v now y)) by reflexivity. rewrite P in D.
  assert (ST : stamp now (z_str now) = z_str now) by (unfold stamp; now rewrite (eqb_neq _ _ Z)).
  assert (NB : char_in bar (z_str now) = false) by (rewrite <- ST; unfold stamp; rewrite (eqb_neq _ _ Z); apply (stamp_no_bar now "" H eq_refl)).
  assert (E1 : parse_cookie E name (srv_seed S) kaka (srv_symkey S) = Ok (Some (payload (mkcreated v now y), stamp now (z_str now)))).
  { destruct (string_dec (srv_symkey S) "") as [K|K].
    - destruct (B K) as [B1 B2]. rewrite K in D. apply (C24_signed_cookie_reads_back E name now iv _ _ (z_str now)); auto.
      unfold payload. cbn [cr_value cr_now cr_type]. rewrite !char_in_app, B1, B2. unfold bar in NB. rewrite NB. reflexivity.
    - apply (C24_encrypted_cookie_reads_back E name now iv _ _ (z_str now)); auto. }
  rewrite ST in E1. rewrite E1, (payload_split _ W). cbn [cr_value cr_now cr_type]. now rewrite String.eqb_refl.
Qed.
Print Assumptions C24_dealer_reads_back.
Lemma app_split (a b c d : string) : (a ++ b = c ++ d)%string -> exists x, (a = c ++ x /\ d = x ++ b)%string \/ (c = a ++ x /\ b = x ++ d)%string.
Proof.
  revert c. induction a as [|h a IH]; intros c E.
  - exists c. right. split; [reflexivity|exact E].
  - destruct c as [|k c].
    + exists (String h a). left. split; [reflexivity|symmetry; exact E].
    + cbn [append] in E. injection E as <- E. destruct (IH c E) as [x [[-> ->]|[-> ->]]]; exists x; [left|right]; auto.
Qed.
Lemma app_same_length (x a : string) : (x ++ a)%string = a -> x = "".
Proof. intros E. apply (f_equal String.length) in E. rewrite slength_app in E. destruct x; [reflexivity|cbn in E; lia]. Qed.
Lemma app_same_length' (x a : string) : (a ++ x)%string = a -> x = "".
Proof. intros E. apply (f_equal String.length) in E. rewrite slength_app in E. destruct x; [reflexivity|cbn in E; lia]. Qed.
(** whatever cookie is presented: the value, time and type the dealer returns are those of
    one cookie it created *)
Theorem C24_dealer_returns_only_what_was_created : forall E S made kaka name v t y,
  Forall well_formed made -> unforged E S made kaka name ->
  get_cookie_value E S kaka name = Ok (Some (v, t, y)) ->
  exists x, In x made /\ v = cr_value x /\ t = z_str (cr_now x) /\ y = cr_type x.
Proof.
  intros E S made kaka name v t y WF UF H. unfold get_cookie_value in H.
  destruct (parse_cookie E name (srv_seed S) kaka (srv_symkey S)) as [[[info ts]|]|e] eqn:P; [|discriminate|destruct e; discriminate].
  destruct (split_colons info) as [|v' [|t' [|y' [|]]]] eqn:Sp; try discriminate.
  destruct (String.eqb_spec ts t') as [->|N]; [|discriminate]. injection H as -> -> ->.
  destruct (C24_accepted_means_verified _ _ _ _ _ _ _ P) as (raw & D & V). destruct (UF _ D) as [U1 U2].
  destruct V as [(V & Bi & Bt)|(b1 & b2 & b3 & iv & ct & tag & Er & Ht & H1 & H2 & H3 & D1 & D2 & D3 & Dc)].
  - destruct (U1 _ _ Bi Bt V) as (x & Ix & Ex). exists x. split; [exact Ix|]. rewrite Forall_forall in WF. pose proof (WF _ Ix) as W.
    assert (EQ : info = payload x).
    { destruct (app_split _ _ _ _ Ex) as [s [[E1 E2]|[E1 E2]]].
      - destruct (payload_split_more x s W) as [l L]. rewrite <- E1, Sp in L. injection L as _ E3 _.
        rewrite <- E3 in E2. assert (s = "") by (apply (app_same_length s t); congruence). subst s. now rewrite sapp_nil in E1.
      - pose proof (split_colons_app _ info s [v; t] y (le_n _) Sp) as Q. rewrite <- E1, (payload_split x W) in Q. cbn [app] in Q.
        injection Q as _ E3 _. rewrite E3 in E2. assert (s = "") by (apply (app_same_length s t); congruence). subst s.
        now rewrite sapp_nil in E1. }
    rewrite EQ, (payload_split x W) in Sp. injection Sp as -> -> ->. auto.
  - destruct (U2 _ _ _ _ _ _ _ _ Er Ht H1 H2 H3 D1 D2 D3 Dc) as (x & Ix & Ex & _). exists x. split; [exact Ix|]. rewrite Forall_forall in WF. pose proof (WF _ Ix) as W.
    rewrite Ex, (payload_split x W) in Sp. injection Sp as -> -> ->. auto.
Qed.
Print Assumptions C24_dealer_returns_only_what_was_created.

(** ** the hypotheses are met *)
Definition toy : cookie_env :=
  mkck (fun k m => (k ++ m)%string) (fun s => s) (fun k i p a => (k ++ i ++ a ++ p)%string)
    (fun k i c a => if starts_with (k ++ i ++ a) c then Some (drop (String.length (k ++ i ++ a)) c) else None).
Definition toy_srv : cookie_srv := mksrv "seed" "".
Example ex_C24_reads : let raw := create_cookie toy toy_srv 1600000000 "" "abc/d" "login" in
  get_cookie_value toy toy_srv [("other", "x"); ("rp", raw)] "rp" = Ok (Some ("abc/d", "1600000000", "login")) /\
  get_cookie_value toy (mksrv "seed2" "") [("rp", raw)] "rp" = Err InvalidCookieSign /\
  well_formed (mkcreated "abc/d" 1600000000 "login").
Proof. vm_compute. repeat split; try reflexivity. discriminate. Qed.
(** the no-forgery hypothesis holds of every cookie the dealer made itself *)
Lemma made_cookie_unforged E S x iv name : srv_symkey S = "" -> (0 <= cr_now x)%Z ->
  char_in "|"%char (cr_value x) = false -> char_in "|"%char (cr_type x) = false ->
  unforged E S [x] [(name, create_cookie E S (cr_now x) iv (cr_value x) (cr_type x))] name.
Proof.
  intros K H V Y raw D. cbn [dget] in D. rewrite String.eqb_refl in D. injection D as <-.
  assert (NB : char_in bar (z_str (cr_now x)) = false) by apply (stamp_no_bar (cr_now x) "" H eq_refl).
  assert (Z : z_str (cr_now x) =?s "" = false).
  { unfold z_str. assert (X : forall u, NilZero.string_of_uint u <> "") by (intros [];discriminate).
    destruct (Z.to_int (cr_now x)); apply eqb_neq; [apply X|discriminate]. }
  assert (U : ck_unquote (create_cookie E S (cr_now x) iv (cr_value x) (cr_type x)) =
    join (String bar "") [payload x; z_str (cr_now x); cookie_signature E (srv_seed S) [payload x; z_str (cr_now x)]]).
  { unfold create_cookie, make_cookie. rewrite unquote_quote, K, Z. reflexivity. }
  assert (SP : split_on bar (ck_unquote (create_cookie E S (cr_now x) iv (cr_value x) (cr_type x))) =
    [payload x; z_str (cr_now x); cookie_signature E (srv_seed S) [payload x; z_str (cr_now x)]]).
  { rewrite U. apply split_join_strs; [discriminate|]. repeat constructor; [|exact NB|apply hexdigest_no_bar].
    unfold payload. rewrite !char_in_app. unfold bar in *. rewrite V, Y, NB. reflexivity. }
  split.
  - intros a b A B R. exists x. split; [now left|]. rewrite <- signature_eq in R. rewrite R in SP.
    change (a ++ "|" ++ b ++ "|" ++ cookie_signature E (srv_seed S) [a; b])%string
      with (join (String bar "") [a; b; cookie_signature E (srv_seed S) [a; b]]) in SP.
    rewrite split_join_strs in SP; [|discriminate|repeat constructor; auto; apply hexdigest_no_bar]. injection SP as -> -> _. reflexivity.
  - intros t b1 b2 b3 iv0 ct tag p R T B1 B2 B3. exfalso. rewrite R in SP.
    change (t ++ "|" ++ b1 ++ "|" ++ b2 ++ "|" ++ b3)%string with (join (String bar "") [t; b1; b2; b3]) in SP.
    rewrite split_join_strs in SP; [discriminate|discriminate|repeat constructor; auto].
Qed.
Example ex_C24_encrypted : let S := mksrv "seed" "key" in
  let raw := create_cookie toy S 1600000000 "iviviviviviv" "a|b" "login" in
  get_cookie_value toy S [("rp", raw)] "rp" = Ok (Some ("a|b", "1600000000", "login")).
Proof. vm_compute. reflexivity. Qed.

(** ** findings *)
(** The MAC is over the payload directly followed by the time stamp: characters can be moved
    from one to the other and the cookie is still accepted by parse_cookie. *)
Theorem C24_boundary_not_authenticated_refuted : forall E seed load c t now iv, char_in "|"%char load = false ->
  char_in "|"%char (String c t) = false -> t <> "" -> (0 <= now)%Z ->
  let raw := ck_quote (join "|" [(load ++ String c "")%string; t; cookie_signature E seed [load; String c t]]) in
  make_cookie E now iv load seed (String c t) "" = ck_quote (join "|" [load; String c t; cookie_signature E seed [load; String c t]]) /\
  parse_cookie E "n" seed [("n", raw)] "" = Ok (Some ((load ++ String c "")%string, t)).
Proof.
  intros E seed load c t now iv L T N H raw. split; [reflexivity|].
  cbn [char_in] in T. apply orb_false_elim in T as [T1 T2].
  rewrite (parse_unfold E "n" seed [("n", raw)] "" raw eq_refl). unfold raw. rewrite unquote_quote. change "|" with (String bar "").
  rewrite split_join_strs; [|discriminate|repeat constructor; auto].
  - unfold verify_cookie_signature. assert (X : cookie_signature E seed [load; String c t] = cookie_signature E seed [(load ++ String c "")%string; t]).
    { unfold cookie_signature. rewrite !concat2. now rewrite sapp_assoc. }
    rewrite X. assert (V : forall x, safe_str_cmp x x = true) by (intros; now apply safe_str_cmp_eq). now rewrite V.
  - rewrite char_in_app. unfold bar in *. rewrite L. cbn [char_in orb]. rewrite T1. reflexivity.
  - apply hexdigest_no_bar.
Qed.
Print Assumptions C24_boundary_not_authenticated_refuted.
(** The name of the cookie is not authenticated: a cookie made under one name is accepted
    under any other. *)
Theorem C24_name_not_authenticated_refuted : forall E S now iv v y n1 n2, (0 <= now)%Z -> well_formed (mkcreated v now y) ->
  (srv_symkey S = "" -> char_in "|"%char v = false /\ char_in "|"%char y = false) ->
  (forall key i p a, ck_dec E key i (ck_enc E key i p a) a = Some p) ->
  let raw := create_cookie E S now iv v y in
  get_cookie_value E S [(n1, raw)] n1 = Ok (Some (v, z_str now, y)) /\
  get_cookie_value E S [(n2, raw)] n2 = Ok (Some (v, z_str now, y)).
Proof.
  intros E S now iv v y n1 n2 H W B A raw. split; apply (C24_dealer_reads_back E S now iv); auto; cbn [dget]; now rewrite String.eqb_refl.
Qed.
Print Assumptions C24_name_not_authenticated_refuted.
(** A tampered encrypted cookie does not give the documented InvalidCookieSign but the
    InvalidTag of the cryptography library. *)
Theorem C24_tampered_encrypted_cookie_exception_refuted :
  let S := mksrv "seed" "key" in
  let raw := ck_quote (join "|" ["1600000000"; b64enc false "iviviviviviv"; b64enc false "x"; b64enc false "tampered tag 16b"]) in
  get_cookie_value toy S [("rp", raw)] "rp" = Err InvalidTag.
Proof. vm_compute. reflexivity. Qed.
Print Assumptions C24_tampered_encrypted_cookie_exception_refuted.
(** A signed value with one bar is taken for an encrypted cookie, a value with '::' gives a
    ValueError and one that ends in a colon reads as no cookie at all. *)
Theorem C24_unreadable_values_refuted :
  let read v := get_cookie_value toy toy_srv [("rp", create_cookie toy toy_srv 1600000000 "" v "login")] "rp" in
  read "a|b" = Err ValueError /\ read "a::b" = Err ValueError /\ read "a:" = Ok None.
Proof. vm_compute. repeat split. Qed.
Print Assumptions C24_unreadable_values_refuted.
