(** Property theorems C69: a cookie that was set comes back.  Model in M_CookieIn.v, the
    header of a request in S_CookieIn.v. *)
From Verif Require Import Base BaseP Json Msg M_Codec M_Cookie S_Cookie P_Cookie M_CookieHdr S_CookieHdr T_Cookie T_CookieHdr
  M_CookieIn S_CookieIn P_CookieIn.

Lemma not_mem x l : ~ In x l -> mem_str x l = false.
Proof.
  intros H. unfold mem_str. destruct (existsb (String.eqb x) l) eqn:E; [|reflexivity]. apply existsb_exists in E as (y & I & Q).
  apply String.eqb_eq in Q. now subst y.
Qed.
Lemma standard_good c : standard_cookie c -> good c.
Proof.
  intros [(N & L & D & R) V]. split.
  - repeat split; [exact N| |exact D|now apply not_mem]. revert L. apply all_chars_imp. exact token_legal.
  - destruct V as [V|(x & -> & X)]; [left|right].
    + revert V. apply all_chars_imp. exact octet_value.
    + exists x. split; [reflexivity|now apply closes_octets].
Qed.
Lemma last_of_get n v cs : last_of n v cs <-> dget n (rev cs) = Some v.
Proof.
  split.
  - intros (b & a & -> & N). rewrite rev_app_distr. cbn [rev]. rewrite !dget_app. cbn [dget].
    assert (X : dget n (rev a) = None).
    { destruct (dget n (rev a)) as [w|] eqn:E; [|reflexivity]. exfalso. apply N. apply dget_In in E. apply in_rev in E.
      apply in_map_iff. exists (n, w). now split. }
    rewrite X. cbn [dget]. now rewrite eqb_refl.
  - induction cs as [|[k w] cs IH]; [discriminate|]. cbn [rev]. rewrite dget_app. destruct (dget n (rev cs)) as [x|] eqn:E.
    + intros H. destruct (IH H) as (b & a & -> & N). exists ((k, w) :: b), a. now split.
    + cbn [dget]. destruct (k =?s n) eqn:Q; [|discriminate]. intros H. apply eqb_true_iff in Q.
      exists [], cs. split; [cbn [app]; congruence|]. intros I. apply in_map_iff in I as ([k' w'] & K & I). cbn in K. subst k'.
      apply in_rev in I. revert I E. generalize (rev cs). clear. intros l I. induction l as [|[a b] l IH]; [destruct I|]. cbn [dget].
      destruct I as [I|I]; [injection I as -> ->; now rewrite eqb_refl|]. destruct (_ =?s _); [discriminate|now apply IH].
Qed.

(** C69: a header with the cookies of any number of parties, all as the standard has them, is
    read as those cookies: each name gives its (last) value, and no other name any. *)
Theorem C69_header_is_understood : forall cs, Forall standard_cookie cs ->
  exists kaka, load_cookies (ua_sends cs) = Ok kaka /\ forall n v, dget n kaka = Some v <-> last_of n v cs.
Proof.
  intros cs H. assert (G : Forall good cs) by (revert H; apply Forall_impl; exact standard_good).
  eexists. split; [exact (loaded cs G)|]. intros n v. rewrite last_wins, last_of_get. destruct (dget n (rev cs)); [reflexivity|]. cbn [dget]. split; discriminate.
Qed.
Print Assumptions C69_header_is_understood.

Lemma quote_readable s : readable (ck_quote s).
Proof.
  unfold ck_quote. destruct (all_chars ck_legal s && negb (s =?s "")) eqn:E.
  - left. apply andb_prop in E as [E _]. revert E. apply all_chars_imp. exact legal_value.
  - right. exists (ck_escs s). split; [reflexivity|apply closes_escs].
Qed.
Lemma made_readable E now iv load seed ts k : readable (make_cookie E now iv load seed ts k).
Proof. unfold make_cookie. apply quote_readable. Qed.
Lemma name_readable n : ck_name_ok n = true -> distinct_name n -> readable_name n.
Proof.
  unfold ck_name_ok. intros H [D R]. apply andb_prop in H as [H N]. apply andb_prop in H as [_ L]. repeat split; [|exact L|exact D|now apply not_mem].
  intros ->. discriminate N.
Qed.
Lemma header_name E date D now iv v y n ttl kill h : create_cookie_header E date D now iv v y n ttl kill = Ok h -> ck_name_ok (used_name D n) = true.
Proof.
  unfold create_cookie_header, make_cookie_header. fold (used_name D n). destruct (ck_name_ok (used_name D n)); [reflexivity|discriminate].
Qed.

(** C69: the cookie of a CookieDealer, sent back by the user agent together with whatever
    other (standard) cookies it has, gives the dealer the value, time and type it was created
    with: for every value and type, signed or encrypted. *)
Theorem C69_dealer_cookie_comes_back : forall E date D now iv v y n ttl h before after,
  attr_text (dl_domain D) -> attr_text (dl_path D) -> (forall t, attr_text (date t)) ->
  create_cookie_header E date D now iv v y n ttl false = Ok h ->
  distinct_name (used_name D n) -> (0 <= now)%Z -> well_formed (mkcreated v now y) ->
  (srv_symkey (dl_srv D) = "" -> char_in "|"%char v = false /\ char_in "|"%char y = false) ->
  (forall key i p a, ck_dec E key i (ck_enc E key i p a) a = Some p) ->
  Forall standard_cookie before -> Forall standard_cookie after -> ~ In (used_name D n) (map fst after) ->
  exists raw, fst (ua_reads h) = (used_name D n, Some raw) /\
    read_cookie E (dl_srv D) (ua_sends (before ++ (used_name D n, raw) :: after)) (used_name D n) = Ok (Some (v, z_str now, y)).
Proof.
  intros E date D now iv v y n ttl h before after AD AP AT H DN T W SB ED SC SA L.
  destruct (dealer_header E date D now iv v y n ttl false h AD AP AT H) as [R _]. eexists. split; [exact R|].
  set (name := used_name D n) in *. set (raw := create_cookie E (dl_srv D) now iv v y) in *.
  assert (G : Forall good (before ++ (name, raw) :: after)).
  { apply Forall_app. split; [revert SC; apply Forall_impl; exact standard_good|]. constructor; [|revert SA; apply Forall_impl; exact standard_good].
    split; cbn [fst snd]; [apply name_readable; [exact (header_name _ _ _ _ _ _ _ _ _ _ _ H)|exact DN]|apply made_readable]. }
  unfold read_cookie. destruct (ua_sends (before ++ (name, raw) :: after) =?s "") eqn:Z.
  - exfalso. apply eqb_true_iff in Z. pose proof (loaded _ G) as X. rewrite Z in X. apply (f_equal (fun r => match r with Ok d => dget name d | Err _ => None end)) in X.
    rewrite last_wins in X. assert (Y : dget name (rev (before ++ (name, raw) :: after)) = Some raw) by (apply last_of_get; exists before, after; now split).
    rewrite Y in X. discriminate X.
  - rewrite (loaded _ G). cbn [rbind]. apply (C24_dealer_reads_back E (dl_srv D) now iv v y); [exact T|exact W|exact SB|exact ED|].
    rewrite last_wins. assert (Y : dget name (rev (before ++ (name, raw) :: after)) = Some raw) by (apply last_of_get; exists before, after; now split).
    now rewrite Y.
Qed.
Print Assumptions C69_dealer_cookie_comes_back.

(** ** the Set-Cookie value itself as the cookie *)
Lemma exactly_app n f : forall a r, String.length a = n -> all_chars f a = true -> exactly n f (a ++ r) = Some (a, r).
Proof.
  induction n as [|n IH]; intros [|c a] r Q A; try discriminate Q; [reflexivity|]. cbn [all_chars] in A. apply andb_prop in A as [A B].
  cbn [append exactly]. rewrite A. cbn [String.length] in Q. now rewrite (IH a r ltac:(lia) B).
Qed.
Lemma and_app n f a r k b t : String.length a = n -> all_chars f a = true -> k r = Some (b, t) ->
  and_then (exactly n f (a ++ r)) k = Some ((a ++ b)%string, t).
Proof. intros L A K. rewrite (exactly_app n f a r L A). cbn [and_then]. now rewrite K. Qed.
Lemma date_reads s : date_text s -> reads s.
Proof.
  intros (wd & day & time & -> & W & Wc & Dl & Dc & Tl & Tc) tail rest ST.
  assert (Wc' : all_chars wordc wd = true) by (revert Wc; apply all_chars_imp; intros c X; unfold wordc; now rewrite X).
  assert (Dc' : all_chars (fun c => wordc c || ws c || Ascii.eqb c "-") day = true).
  { revert Dc. apply all_chars_imp. intros c X. apply Bool.orb_true_iff in X. unfold wordc. destruct X as [-> | ->]; now rewrite ?Bool.orb_true_r. }
  assert (X : date_value ((wd ++ ", " ++ day ++ " " ++ time ++ " GMT") ++ tail) = Some ((wd ++ ", " ++ day ++ " " ++ time ++ " GMT")%string, tail)).
  { rewrite !sapp_assoc. unfold date_value. apply (and_app 3 wordc wd); [exact W|exact Wc'|].
    apply (and_app 1 _ ","); [reflexivity|reflexivity|]. apply (and_app 1 _ " "); [reflexivity|reflexivity|].
    cbn [map first_some fold_right].
    erewrite (and_app 11 _ day); [|exact Dl|exact Dc'|]; [reflexivity|].
    apply (and_app 1 _ " "); [reflexivity|reflexivity|]. apply (and_app 8 _ time); [exact Tl|exact Tc|]. reflexivity. }
  destruct wd as [|a wd]; [discriminate W|]. cbn [all_chars] in Wc. apply andb_prop in Wc as [Wa _].
  assert (N : nodelim a = true). { revert Wa. generalize a. apply class_imp. vm_compute. reflexivity. }
  apply nodelim_inv in N as (N1 & _ & N3). split.
  - unfold value_at. rewrite X. cbn [append quoted_value with_ending]. rewrite N3. cbn [with_ending first_some fold_right]. now rewrite (stop_ending _ _ ST).
  - cbn [append skip_ws]. now rewrite N1.
Qed.
(** an attribute of a cookie in a header, and the name it is read as *)
Definition attr_part (p : string) : Prop := p <> "" /\ exists k v, part_of p k v /\ starts_with "$" k = false /\
  mem_str (lower k) ck_reserved = true /\ (v = None -> mem_str (lower k) ck_flags = true).
Lemma attr_value k v : k <> "" -> all_chars ck_legal k = true -> starts_with "$" k = false -> mem_str (lower k) ck_reserved = true -> reads v ->
  attr_part (k ++ "=" ++ v).
Proof.
  intros N L D R V. split; [destruct k; discriminate|]. exists k, (Some v). split; [now apply pair_part|]. split; [exact D|]. split; [exact R|discriminate].
Qed.
Lemma attr_flag k : k <> "" -> all_chars ck_legal k = true -> starts_with "$" k = false -> mem_str (lower k) ck_reserved = true ->
  mem_str (lower k) ck_flags = true -> attr_part k.
Proof. intros N L D R F. split; [exact N|]. exists k, None. split; [now apply flag_part|]. split; [exact D|]. split; [exact R|now intros _]. Qed.
Lemma opt_forall (P : string -> Prop) c t : (c = true -> P t) -> Forall P (opt_attr c t).
Proof. unfold opt_attr. destruct c; intros H; [constructor; [now apply H|constructor]|constructor]. Qed.
Lemma octets_read s : all_chars cookie_octet s = true -> reads s.
Proof. intros H. apply readable_reads. left. revert H. apply all_chars_imp. exact octet_value. Qed.
Lemma loaded_header n v ps : readable_name n -> readable v -> Forall attr_part ps ->
  load_cookies (join "; " ((n ++ "=" ++ v)%string :: ps)) = Ok [(n, v)].
Proof.
  intros N V A.
  assert (H : exists kvs, Forall2 (fun p kv => part_of p (fst kv) (snd kv)) ps kvs /\ Forall (fun p => p <> "") ps /\
    exists l, items_of kvs true = Some l /\ forall d, apply_items l d = Ok d).
  { induction A as [|p ps (Np & k & w & P & D & R & F) A IH].
    - exists []. repeat split; [constructor|constructor|]. exists []. now split.
    - destruct IH as (kvs & F2 & NE & l & I & AP). exists ((k, w) :: kvs). split; [constructor; [exact P|exact F2]|]. split; [constructor; assumption|].
      exists (CkAttr k :: l). cbn [items_of apply_items]. unfold take_item. rewrite D, R. split; [|intros d; apply AP].
      destruct w as [x|]; [now rewrite I|]. rewrite (F eq_refl), I. reflexivity. }
  destruct H as (kvs & F2 & NE & l & I & AP).
  assert (P : part_of (n ++ "=" ++ v) n (Some v)) by (destruct N as (N1 & N2 & _); apply pair_part; [exact N1|exact N2|now apply readable_reads]).
  unfold load_cookies.
  destruct (parts_read ((n ++ "=" ++ v)%string :: ps) ((n, Some v) :: kvs) ltac:(constructor; [exact P|exact F2])
    ltac:(constructor; [destruct n; discriminate|exact NE]) _ false (Nat.le_refl _)) as [X _].
  rewrite X. cbn [items_of]. rewrite (item_read _ _ _ N), I. cbn [app apply_items]. destruct N as (N1 & N2 & _). rewrite N2, (eqb_neq _ _ N1). apply AP.
Qed.
Lemma header_not_empty n v ps : ((join "; " ((n ++ "=" ++ v)%string :: ps)) =?s "") = false.
Proof. destruct n, ps; reflexivity. Qed.

(** C69: the value of the Set-Cookie header can be handed back as it is. *)
Theorem C69_set_cookie_value_reads_back : forall E date D now iv v y n ttl h,
  all_chars cookie_octet (dl_domain D) = true -> all_chars cookie_octet (dl_path D) = true -> (forall t, date_text (date t)) ->
  create_cookie_header E date D now iv v y n ttl false = Ok h ->
  distinct_name (used_name D n) -> (0 <= now)%Z -> well_formed (mkcreated v now y) ->
  (srv_symkey (dl_srv D) = "" -> char_in "|"%char v = false /\ char_in "|"%char y = false) ->
  (forall key i p a, ck_dec E key i (ck_enc E key i p a) a = Some p) ->
  read_cookie E (dl_srv D) h (used_name D n) = Ok (Some (v, z_str now, y)).
Proof.
  intros E date D now iv v y n ttl h DD DP DT H DN T W SB ED. pose proof (header_name _ _ _ _ _ _ _ _ _ _ _ H) as NO.
  unfold create_cookie_header, make_cookie_header in H. fold (used_name D n) in H. rewrite NO in H. apply (f_equal (fun r => match r with Ok x => x | Err _ => "" end)) in H.
  cbv beta iota in H. rewrite <- H. clear H. unfold read_cookie. rewrite header_not_empty. rewrite loaded_header.
  - cbn [rbind]. apply (C24_dealer_reads_back E (dl_srv D) now iv v y); [exact T|exact W|exact SB|exact ED|]. cbn [dget]. rewrite eqb_refl. reflexivity.
  - now apply name_readable.
  - apply made_readable.
  - unfold ck_attributes. cbn [at_domain at_expire at_http_only at_path at_same_site at_secure].
    repeat (apply Forall_app; split); apply opt_forall; intros _;
      first [ apply (attr_flag "HttpOnly"); (discriminate || reflexivity) | apply (attr_flag "Secure"); (discriminate || reflexivity) | idtac ].
    + apply (attr_value "Domain"); try discriminate; try reflexivity. now apply octets_read.
    + apply (attr_value "expires"); try discriminate; try reflexivity. now apply date_reads.
    + apply (attr_value "Path"); try discriminate; try reflexivity. now apply octets_read.
    + apply (attr_value "SameSite"); try discriminate; try reflexivity. now apply octets_read.
Qed.
Print Assumptions C69_set_cookie_value_reads_back.

(** C69: whatever text is presented as the Cookie header, what the dealer returns is one of
    the cookies it created. *)
Theorem C69_any_header : forall E S made header name v t y, Forall well_formed made ->
  (forall kaka, load_cookies header = Ok kaka -> unforged E S made kaka name) ->
  read_cookie E S header name = Ok (Some (v, t, y)) ->
  exists x, In x made /\ v = cr_value x /\ t = z_str (cr_now x) /\ y = cr_type x.
Proof.
  intros E S made header name v t y W U. unfold read_cookie. destruct (header =?s ""); [discriminate|].
  destruct (load_cookies header) as [kaka|e] eqn:L; cbn [rbind]; [|discriminate]. intros H.
  exact (C24_dealer_returns_only_what_was_created E S made kaka name v t y W (U kaka eq_refl) H).
Qed.
Print Assumptions C69_any_header.

(** ** findings: the cookies of others decide whether the own one is found *)
Lemma first_part p k v rest seen fuel : part_of p k v -> 
  parse_items (S fuel) (p ++ String ";" rest) seen =
  match take_item k v seen with
  | None => None
  | Some (i, s') => match parse_items fuel rest s' with Some i' => Some (i ++ i') | None => None end
  end.
Proof. intros P. cbn [parse_items]. destruct (P (String ";" rest) rest) as [-> _]; [now right|]. reflexivity. Qed.
(** a first cookie that is named like an attribute, or that has no name: nothing is read *)
Theorem C69_attribute_name_first_refuted : forall n v rest E S name, standard_value v -> all_chars token_char n = true ->
  starts_with "$" n = false -> In (lower n) attribute_names ->
  read_cookie E S (n ++ "=" ++ v ++ ";" ++ rest) name = Ok None.
Proof.
  intros n v rest E S name V L D R. unfold read_cookie. destruct (_ =?s "") eqn:Z; [reflexivity|].
  assert (N : n <> "") by (intros ->; revert R; cbn; intuition discriminate).
  assert (P : part_of (n ++ "=" ++ v) n (Some v)).
  { apply pair_part; [exact N|revert L; apply all_chars_imp; exact token_legal|]. apply readable_reads.
    destruct V as [V|(x & -> & X)]; [left; revert V; apply all_chars_imp; exact octet_value|right; exists x; split; [reflexivity|now apply closes_octets]]. }
  unfold load_cookies. replace (n ++ "=" ++ v ++ ";" ++ rest)%string with ((n ++ "=" ++ v) ++ String ";" rest)%string by (rewrite !sapp_assoc; reflexivity).
  destruct (String.length ((n ++ "=" ++ v) ++ String ";" rest)) as [|fuel] eqn:F; [reflexivity|].
  rewrite (first_part _ _ _ _ _ _ P). unfold take_item. rewrite D.
  assert (M : mem_str (lower n) ck_reserved = true) by (apply existsb_exists; exists (lower n); split; [exact R|apply eqb_refl]).
  rewrite M. reflexivity.
Qed.
Print Assumptions C69_attribute_name_first_refuted.
Theorem C69_nameless_cookie_refuted : forall v rest E S name, v <> "" -> all_chars token_char v = true ->
  starts_with "$" v = false -> read_cookie E S (v ++ ";" ++ rest) name = Ok None.
Proof.
  intros v rest E S name N L D. unfold read_cookie. destruct (_ =?s "") eqn:Z; [reflexivity|].
  assert (P : part_of v v None) by (apply flag_part; [exact N|revert L; apply all_chars_imp; exact token_legal]).
  unfold load_cookies. change (v ++ ";" ++ rest)%string with (v ++ String ";" rest)%string.
  destruct (String.length (v ++ String ";" rest)) as [|fuel] eqn:F; [reflexivity|].
  rewrite (first_part _ _ _ _ _ _ P). unfold take_item. rewrite D. now destruct (mem_str (lower v) ck_reserved).
Qed.
Print Assumptions C69_nameless_cookie_refuted.
(** a cookie whose value is JSON: those before it are read, those after it are not *)
Theorem C69_json_value_refuted : forall rest E S name,
  read_cookie E S ("prefs={" ++ quote_mark ++ rest) name = Ok None.
Proof.
  intros rest E S name. unfold read_cookie. destruct (_ =?s "") eqn:Z; [reflexivity|]. unfold load_cookies.
  destruct (String.length ("prefs={" ++ quote_mark ++ rest)) as [|fuel]; [reflexivity|]. cbn [parse_items].
  assert (X : match_cookie ("prefs={" ++ quote_mark ++ rest) = None).
  { unfold match_cookie, quote_mark. cbn [append].
    change (skip_ws (String "p" ?r)) with (String "p" r). cbn [match_key].
    change (key_char "p") with true. change (key_char "r") with true. change (key_char "e") with true. change (key_char "f") with true.
    change (key_char "s") with true. change (key_char "=") with true. change (key_char "{") with true.
    rewrite !after_legal by reflexivity. cbn [match_key].
    assert (D : forall c r, ws c = false -> Ascii.eqb c ";" = false -> ending (String c r) = None).
    { intros c r A B. unfold ending. cbn [skip_ws]. now rewrite A, B, eqb_refl. }
    assert (K : forall c r, ws c = false -> Ascii.eqb c ";" = false -> Ascii.eqb c "=" = false -> after_key (String c r) = None).
    { intros c r A B C. unfold after_key. rewrite (D c r A B). cbn [skip_ws]. now rewrite A, C. }
    assert (V : value_at (String "{" (String "034" rest)) = None).
    { unfold value_at. change (date_value (String "{" ?r)) with (@None (string * string)). change (quoted_value (String "{" ?r)) with (@None (string * string)).
      change (span value_char (String "{" (String "034" rest))) with ("{", String "034" rest). cbn [with_ending first_some fold_right].
      now rewrite (D "034"%char rest eq_refl eq_refl). }
    assert (Q : after_key (String "=" (String "{" (String "034" rest))) = None).
    { unfold after_key. rewrite (D "="%char _ eq_refl eq_refl). change (skip_ws (String "=" ?r)) with (String "=" r). cbn iota.
      change (Ascii.eqb "=" "=") with true. cbn iota. change (skip_ws (String "{" ?r)) with (String "{" r). now rewrite V, eqb_refl. }
    rewrite Q, (K "{"%char _ eq_refl eq_refl eq_refl), (K "034"%char _ eq_refl eq_refl eq_refl). reflexivity. }
  now rewrite X.
Qed.
Print Assumptions C69_json_value_refuted.
(** the cookie of another with a character in its name that is allowed nowhere but that
    user agents let pass: reading the own one raises an exception *)
Theorem C69_foreign_name_raises_refuted : forall cs E S name, Forall standard_cookie cs ->
  read_cookie E S (ua_sends (("user@host", "1") :: cs)) name = Err OtherError.
Proof.
  intros cs E S name H. assert (G : Forall good cs) by (revert H; apply Forall_impl; exact standard_good).
  unfold read_cookie. destruct (_ =?s "") eqn:Z; [destruct cs; discriminate Z|].
  assert (P : part_of "user@host=1" "user@host" (Some "1")).
  { intros tail rest T. change ("user@host=1" ++ tail)%string with ("user@host" ++ String "=" ("1" ++ tail))%string.
    apply key_read_any; [discriminate|reflexivity|]. apply after_name; [|exact T]. apply readable_reads. left. reflexivity. }
  assert (F2 : Forall2 (fun p kv => part_of p (fst kv) (snd kv)) (map (fun c => (fst c ++ "=" ++ snd c)%string) (("user@host", "1") :: cs))
    (map (fun c => (fst c, Some (snd c))) (("user@host", "1") :: cs))).
  { cbn [map]. constructor; [exact P|]. clear Z H. induction G as [|[n v] cs [(N & L & _) V] G IH]; [constructor|]. cbn [map fst snd]. constructor; [|exact IH]. cbn [fst snd] in *.
    apply pair_part; [exact N|exact L|now apply readable_reads]. }
  assert (NE : Forall (fun p => p <> "") (map (fun c => (fst c ++ "=" ++ snd c)%string) (("user@host", "1") :: cs))).
  { apply Forall_forall. intros p Ip. apply in_map_iff in Ip as ([n v] & <- & _). destruct n; discriminate. }
  unfold load_cookies. destruct (parts_read _ _ F2 NE _ false (Nat.le_refl _)) as [X _]. unfold ua_sends. rewrite X.
  cbn [map items_of fst snd]. change (take_item "user@host" (Some "1") false) with (Some ([CkPair "user@host" "1"], true)). cbn iota beta.
  assert (Y : exists l, items_of (map (fun c => (fst c, Some (snd c))) cs) true = Some l).
  { clear - G. generalize true. induction G as [|[n v] cs [N V] G IH]; intros seen; [now exists []|]. cbn [map items_of fst snd] in *. rewrite (item_read _ _ _ N).
    destruct (IH true) as [l ->]. now eexists. }
  destruct Y as [l ->]. reflexivity.
Qed.
Print Assumptions C69_foreign_name_raises_refuted.
(** a dealer may be given a name that starts with a dollar sign: its cookie is set, and never
    found again *)
Theorem C69_dollar_name_refuted : exists E date D now iv v y h raw,
  create_cookie_header E date D now iv v y None 5 false = Ok h /\ fst (ua_reads h) = (dl_name D, Some raw) /\
  well_formed (mkcreated v now y) /\ read_cookie E (dl_srv D) (ua_sends [(dl_name D, raw)]) (dl_name D) = Ok None.
Proof.
  exists hx_env, hx_date, (mkdealer (mksrv "seed" "") "$rp" "" "/app" 5), 1000%Z, "iv", "v", "y".
  do 2 eexists. split; [vm_compute; reflexivity|]. split; [vm_compute; reflexivity|]. split; [repeat split; cbn; lia|]. vm_compute. reflexivity.
Qed.
Print Assumptions C69_dollar_name_refuted.

(** A value with separators comes back among cookies of others. *)
Definition nx_date (t : Z) : string := "Wed, 18-Nov-2026 10:00:00 GMT".
Example C69_ex : (forall t, date_text (nx_date t)) /\
  Forall standard_cookie [("a", "x=y"); ("b", (quote_mark ++ "q" ++ quote_mark)%string)] /\
  exists h raw, create_cookie_header toy nx_date hx_dealer 1000 "iv" "a; b=c" "x,y" None (-1) false = Ok h /\
    fst (ua_reads h) = ("rp", Some raw) /\
    read_cookie toy (dl_srv hx_dealer) (ua_sends ([("a", "x=y"); ("rp", "old")] ++ ("rp", raw) :: [("b", (quote_mark ++ "q" ++ quote_mark)%string)])) "rp"
      = Ok (Some ("a; b=c", "1000", "x,y")) /\
    read_cookie toy (dl_srv hx_dealer) h "rp" = Ok (Some ("a; b=c", "1000", "x,y")).
Proof.
  split; [|split].
  - intros t. exists "Wed", "18-Nov-2026", "10:00:00". repeat split.
  - apply Forall_cons; [|apply Forall_cons; [|apply Forall_nil]].
    + split; [|left; reflexivity]. split; [discriminate|]. split; [reflexivity|]. split; [reflexivity|]. cbn. intuition discriminate.
    + split; [|right; exists "q"; split; reflexivity]. split; [discriminate|]. split; [reflexivity|]. split; [reflexivity|]. cbn. intuition discriminate.
  - do 2 eexists. split; [vm_compute; reflexivity|]. split; [vm_compute; reflexivity|]. split; vm_compute; reflexivity.
Qed.
