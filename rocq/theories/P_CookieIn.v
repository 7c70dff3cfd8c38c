From Verif Require Import Base BaseP Json Msg M_Codec M_Cookie S_Cookie P_Cookie M_CookieHdr S_CookieHdr T_Cookie T_CookieHdr M_CookieIn S_CookieIn.

(** one character at a time: facts about classes are checked for all 256 *)
Lemma all_ascii (P : ascii -> bool) : forallb (fun n => P (ascii_of_nat n)) (seq 0 256) = true -> forall c, P c = true.
Proof.
  intros H c. rewrite forallb_forall in H. specialize (H (nat_of_ascii c)). rewrite ascii_nat_embedding in H. apply H.
  apply in_seq. pose proof (nat_ascii_bounded c). lia.
Qed.
Lemma class_imp (f g : ascii -> bool) : forallb (fun n => implb (f (ascii_of_nat n)) (g (ascii_of_nat n))) (seq 0 256) = true ->
  forall c, f c = true -> g c = true.
Proof. intros H c F. pose proof (all_ascii (fun c => implb (f c) (g c)) H c) as X. cbn beta in X. now rewrite F in X. Qed.
Definition nodelim (c : ascii) : bool := negb (ws c) && negb (Ascii.eqb c ";") && negb (Ascii.eqb c dquote).
Lemma legal_key c : ck_legal c = true -> key_char c = true.
Proof. revert c. apply class_imp. vm_compute. reflexivity. Qed.
Lemma legal_stop c : ck_legal c = true -> (nodelim c && negb (Ascii.eqb c "=")) = true.
Proof. revert c. apply class_imp. vm_compute. reflexivity. Qed.
Lemma value_nodelim c : value_char c = true -> nodelim c = true.
Proof. revert c. apply class_imp. vm_compute. reflexivity. Qed.
Lemma legal_value c : ck_legal c = true -> value_char c = true.
Proof. revert c. apply class_imp. vm_compute. reflexivity. Qed.
Lemma token_legal c : token_char c = true -> ck_legal c = true.
Proof. revert c. apply class_imp. vm_compute. reflexivity. Qed.
Lemma octet_value c : cookie_octet c = true -> value_char c = true.
Proof. revert c. apply class_imp. vm_compute. reflexivity. Qed.
Lemma octet_unquoted c : cookie_octet c = true -> (negb (Ascii.eqb c dquote) && negb (Ascii.eqb c bslash)) = true.
Proof. revert c. apply class_imp. vm_compute. reflexivity. Qed.
Lemma plain_unquoted c : ck_plain c = true -> (negb (Ascii.eqb c dquote) && negb (Ascii.eqb c bslash)) = true.
Proof. revert c. apply class_imp. vm_compute. reflexivity. Qed.

(** where a cookie may end: at the end, or at a semicolon *)
Definition stops (tail rest : string) : Prop := (tail = "" /\ rest = "") \/ tail = String ";" rest.
Lemma stop_skip tail rest : stops tail rest -> skip_ws tail = tail.
Proof. intros [[-> _]| ->]; reflexivity. Qed.
Lemma stop_ending tail rest : stops tail rest -> ending tail = Some rest.
Proof. intros [[-> ->]| ->]; reflexivity. Qed.

Lemma nodelim_inv c : nodelim c = true -> ws c = false /\ Ascii.eqb c ";" = false /\ Ascii.eqb c dquote = false.
Proof. unfold nodelim. intros H. apply andb_prop in H as [H C]. apply andb_prop in H as [A B]. now destruct (ws c), (Ascii.eqb c ";"), (Ascii.eqb c dquote). Qed.
Definition keyish (c : ascii) : bool := key_char c && nodelim c && negb (Ascii.eqb c "=").
Lemma legal_keyish c : ck_legal c = true -> keyish c = true.
Proof. revert c. apply class_imp. vm_compute. reflexivity. Qed.
Lemma after_keyish c r : keyish c = true -> after_key (String c r) = None.
Proof.
  unfold keyish. intros X. apply andb_prop in X as [X Q]. apply andb_prop in X as [_ X]. apply nodelim_inv in X as (A & B & _).
  apply Bool.negb_true_iff in Q. unfold after_key. cbn [skip_ws]. rewrite A, Q. unfold ending. cbn [skip_ws].
  now rewrite A, B, eqb_refl.
Qed.
Lemma after_legal c r : ck_legal c = true -> after_key (String c r) = None.
Proof. intros L. apply after_keyish. now apply legal_keyish. Qed.

(** the end of a quoted text *)
Lemma quoted_unfold c r : Ascii.eqb c dquote = false -> Ascii.eqb c bslash = false ->
  quoted_rest (String c r) = match quoted_rest r with Some (a, b) => Some (String c a, b) | None => None end.
Proof. intros A B. cbn [quoted_rest]. now rewrite A, B. Qed.
Lemma quoted_escape d r : Ascii.eqb d newline = false ->
  quoted_rest (String bslash (String d r)) = match quoted_rest r with Some (a, b) => Some (String bslash (String d a), b) | None => None end.
Proof. intros A. cbn [quoted_rest]. change (Ascii.eqb bslash dquote) with false. change (Ascii.eqb bslash bslash) with true. cbn [quoted_rest]. now rewrite A. Qed.
Definition closes (body : string) : Prop := forall r, quoted_rest (body ++ String dquote r) = Some ((body ++ String dquote "")%string, r).
Lemma closes_nil : closes "".
Proof. intros r. reflexivity. Qed.
Lemma closes_cons c b : (negb (Ascii.eqb c dquote) && negb (Ascii.eqb c bslash)) = true -> closes b -> closes (String c b).
Proof.
  intros H C r. apply andb_prop in H as [A B]. apply Bool.negb_true_iff in A, B. cbn [append]. rewrite (quoted_unfold _ _ A B). now rewrite (C r).
Qed.
Lemma closes_esc d b : Ascii.eqb d newline = false -> closes b -> closes (String bslash (String d b)).
Proof. intros H C r. cbn [append]. rewrite (quoted_escape _ _ H). now rewrite (C r). Qed.
Lemma digit_unquoted c : is_digit c = true -> (negb (Ascii.eqb c dquote) && negb (Ascii.eqb c bslash) && negb (Ascii.eqb c newline)) = true.
Proof. revert c. apply class_imp. vm_compute. reflexivity. Qed.
Lemma closes_app_esc c b : closes b -> closes (ck_esc c ++ b).
Proof.
  intros C. unfold ck_esc. destruct (ck_plain c) eqn:P.
  - cbn [append]. apply closes_cons; [now apply plain_unquoted|exact C].
  - destruct (Ascii.eqb c dquote || Ascii.eqb c bslash) eqn:Q.
    + cbn [append]. apply closes_esc; [|exact C]. apply Bool.orb_true_iff in Q. destruct Q as [Q|Q]; apply Ascii.eqb_eq in Q; subst c; reflexivity.
    + cbn [append]. assert (A : nat_of_ascii c / 64 < 8). { pose proof (nat_ascii_bounded c). apply Nat.div_lt_upper_bound; lia. }
      pose proof (octal_digit _ A) as D1. assert (B : nat_of_ascii c / 8 mod 8 < 8) by (apply Nat.mod_upper_bound; lia).
      assert (B' : nat_of_ascii c mod 8 < 8) by (apply Nat.mod_upper_bound; lia).
      pose proof (octal_digit _ B) as D2. pose proof (octal_digit _ B') as D3.
      apply digit_unquoted in D1, D2, D3. apply andb_prop in D1 as [_ N1]. apply andb_prop in D2 as [U2 _]. apply andb_prop in D3 as [U3 _].
      apply Bool.negb_true_iff in N1. apply closes_esc; [exact N1|]. apply closes_cons; [exact U2|]. apply closes_cons; [exact U3|exact C].
Qed.
Lemma closes_escs s : closes (ck_escs s).
Proof. induction s as [|c s IH]; [exact closes_nil|]. cbn [ck_escs]. now apply closes_app_esc. Qed.
Lemma closes_octets x : all_chars cookie_octet x = true -> closes x.
Proof.
  induction x as [|c x IH]; [intros _; exact closes_nil|]. cbn [all_chars]. intros H. apply andb_prop in H as [A B].
  apply closes_cons; [now apply octet_unquoted|now apply IH].
Qed.

(** values that are read as they stand *)
Definition readable (v : string) : Prop :=
  all_chars value_char v = true \/ exists b, v = String dquote (b ++ String dquote "") /\ closes b.
Definition readable_name (n : string) : Prop :=
  n <> "" /\ all_chars ck_legal n = true /\ starts_with "$" n = false /\ mem_str (lower n) ck_reserved = false.

Lemma span_all f v tail : all_chars f v = true -> (match tail with String c _ => f c = false | _ => True end) -> span f (v ++ tail) = (v, tail).
Proof.
  induction v as [|c v IH]; cbn [all_chars append]; intros H T.
  - destruct tail as [|d t]; [reflexivity|]. cbn [span]. now rewrite T.
  - apply andb_prop in H as [A B]. cbn [span]. rewrite A, (IH B T). reflexivity.
Qed.
(** a value without spaces is not a date *)
Lemma exactly_S n f c r : exactly (S n) f (String c r) = if f c then match exactly n f r with Some (a, b) => Some (String c a, b) | None => None end else None.
Proof. reflexivity. Qed.
Lemma date_fifth a b c d e r : ws e = false -> date_value (String a (String b (String c (String d (String e r))))) = None.
Proof.
  intros H. unfold date_value. cbn [exactly]. destruct (wordc a); [|reflexivity]. destruct (wordc b); [|reflexivity].
  destruct (wordc c); [|reflexivity]. cbn [and_then exactly]. destruct (Ascii.eqb "," d); [|reflexivity]. cbn [and_then exactly]. now rewrite H.
Qed.
Lemma no_date v tail rest : all_chars value_char v = true -> stops tail rest -> date_value (v ++ tail) = None.
Proof.
  intros V T.
  destruct v as [|a [|b [|c [|d [|e v]]]]]; cbn [append].
  - destruct T as [[-> _]| ->]; reflexivity.
  - destruct T as [[-> _]| ->]; unfold date_value; cbn [exactly]; destruct (wordc a); reflexivity.
  - destruct T as [[-> _]| ->]; unfold date_value; cbn [exactly]; destruct (wordc a); destruct (wordc b); reflexivity.
  - destruct T as [[-> _]| ->]; unfold date_value; cbn [exactly]; destruct (wordc a); destruct (wordc b); destruct (wordc c); reflexivity.
  - destruct T as [[-> _]| ->].
    + unfold date_value; cbn [exactly]; destruct (wordc a); [|reflexivity]. destruct (wordc b); [|reflexivity]. destruct (wordc c); [|reflexivity].
      cbn [and_then exactly]. destruct (Ascii.eqb "," d); reflexivity.
    + now apply date_fifth.
  - apply date_fifth. cbn [all_chars] in V. apply andb_prop in V as [_ V]. apply andb_prop in V as [_ V]. apply andb_prop in V as [_ V].
    apply andb_prop in V as [_ V]. apply andb_prop in V as [V _]. apply value_nodelim, nodelim_inv in V. apply V.
Qed.
Lemma no_quoted v tail rest : all_chars value_char v = true -> stops tail rest -> quoted_value (v ++ tail) = None.
Proof.
  intros V T. destruct v as [|c v]; cbn [append].
  - destruct T as [[-> _]| ->]; reflexivity.
  - cbn [all_chars] in V. apply andb_prop in V as [V _]. apply value_nodelim, nodelim_inv in V. cbn [quoted_value]. destruct V as (_ & _ & ->). reflexivity.
Qed.
Lemma value_read v tail rest : readable v -> stops tail rest -> value_at (v ++ tail) = Some (v, rest).
Proof.
  intros [V|(b & -> & C)] T.
  - unfold value_at. rewrite (no_quoted _ _ _ V T), (no_date _ _ _ V T). rewrite (span_all value_char v tail V).
    + cbn [with_ending first_some fold_right]. now rewrite (stop_ending _ _ T).
    + destruct T as [[-> _]| ->]; exact I || reflexivity.
  - unfold value_at. cbn [append]. cbn [quoted_value]. change (Ascii.eqb dquote dquote) with true. cbn iota.
    replace ((b ++ String dquote "") ++ tail)%string with (b ++ String dquote tail)%string.
    + rewrite (C tail). cbn [with_ending]. rewrite (stop_ending _ _ T). reflexivity.
    + clear. induction b as [|c b IH]; cbn [append]; [reflexivity|]. now rewrite IH.
Qed.
Lemma value_no_ws v tail rest : readable v -> stops tail rest -> skip_ws (v ++ tail) = (v ++ tail)%string.
Proof.
  intros [V|(b & -> & _)] T.
  - destruct v as [|c v]; cbn [append]; [exact (stop_skip _ _ T)|]. cbn [all_chars] in V. apply andb_prop in V as [V _].
    apply value_nodelim, nodelim_inv in V. cbn [skip_ws]. now destruct V as (-> & _).
  - cbn [append skip_ws]. reflexivity.
Qed.
(** a value that is read as it stands *)
Definition reads (v : string) : Prop := forall tail rest, stops tail rest ->
  value_at (v ++ tail) = Some (v, rest) /\ skip_ws (v ++ tail) = (v ++ tail)%string.
Lemma readable_reads v : readable v -> reads v.
Proof. intros V tail rest T. split; [now apply value_read|now apply (value_no_ws v tail rest)]. Qed.
Lemma after_name v tail rest : reads v -> stops tail rest -> after_key (String "=" (v ++ tail)) = Some (Some v, rest).
Proof.
  intros V T. unfold after_key. cbn [skip_ws]. change (ws "=") with false. cbn iota. change (Ascii.eqb "=" "=") with true. cbn iota.
  destruct (V tail rest T) as [A B]. now rewrite B, A.
Qed.
(** the key is read up to where what follows it fits *)
Lemma key_read_any n s v rest : n <> "" -> all_chars keyish n = true -> after_key s = Some (v, rest) ->
  match_cookie (n ++ s) = Some (n, v, rest) /\ match_cookie (String " " (n ++ s)) = Some (n, v, rest).
Proof.
  intros N L V.
  assert (K : match_key (n ++ s) = Some (n, v, rest)).
  { clear - N L V. induction n as [|c n IH]; [congruence|]. cbn [all_chars] in L. apply andb_prop in L as [A B].
    cbn [append match_key]. assert (A' : key_char c = true) by (unfold keyish in A; now destruct (key_char c)). rewrite A'. destruct n as [|d n].
    - cbn [append]. now rewrite V.
    - cbn [append]. pose proof B as B'. cbn [all_chars] in B'. apply andb_prop in B' as [D _]. rewrite (after_keyish _ _ D).
      cbn [append] in IH. rewrite IH; [reflexivity|discriminate|exact B]. }
  unfold match_cookie.
  assert (X : skip_ws (n ++ s) = (n ++ s)%string).
  { destruct n as [|c n]; [congruence|]. cbn [all_chars] in L. apply andb_prop in L as [A _]. unfold keyish in A.
    apply andb_prop in A as [A _]. apply andb_prop in A as [_ A]. apply nodelim_inv in A.
    cbn [append skip_ws]. now destruct A as (-> & _). }
  change (skip_ws (String " " (n ++ s))) with (skip_ws (n ++ s)). now rewrite X.
Qed.
Lemma key_read n s v rest : n <> "" -> all_chars ck_legal n = true -> after_key s = Some (v, rest) ->
  match_cookie (n ++ s) = Some (n, v, rest) /\ match_cookie (String " " (n ++ s)) = Some (n, v, rest).
Proof. intros N L. apply key_read_any; [exact N|]. revert L. apply all_chars_imp. exact legal_keyish. Qed.

(** a part of a header that is read as a key and a value *)
Definition part_of (p k : string) (v : option string) : Prop := forall tail rest, stops tail rest ->
  match_cookie (p ++ tail) = Some (k, v, rest) /\ match_cookie (String " " (p ++ tail)) = Some (k, v, rest).
Lemma pair_part n v : n <> "" -> all_chars ck_legal n = true -> reads v -> part_of (n ++ "=" ++ v) n (Some v).
Proof.
  intros N L V tail rest T. rewrite sapp_assoc. apply key_read; [exact N|exact L|]. cbn [append]. now apply after_name.
Qed.
Lemma flag_part n : n <> "" -> all_chars ck_legal n = true -> part_of n n None.
Proof. intros N L tail rest T. apply key_read; [exact N|exact L|]. destruct T as [[-> ->]| ->]; reflexivity. Qed.

(** what the parts of a header give *)
Fixpoint items_of (l : list (string * option string)) (seen : bool) : option (list ck_item) :=
  match l with
  | [] => Some []
  | (k, v) :: r =>
      match take_item k v seen with
      | None => None
      | Some (i, seen') => match items_of r seen' with Some i' => Some (i ++ i') | None => None end
      end
  end.
Lemma parts_read ps : forall kvs, Forall2 (fun p kv => part_of p (fst kv) (snd kv)) ps kvs -> Forall (fun p => p <> "") ps ->
  forall fuel seen, String.length (join "; " ps) <= fuel ->
  parse_items fuel (join "; " ps) seen = items_of kvs seen /\
  (ps <> [] -> parse_items fuel (String " " (join "; " ps)) seen = items_of kvs seen).
Proof.
  induction ps as [|p ps IH]; intros kvs F2 NE fuel seen F.
  - inversion F2; subst. split; [|congruence]. destruct fuel; reflexivity.
  - inversion F2 as [|? [k v] ? kvs' P F2']; subst. inversion NE as [|? ? Np NE']; subst. cbn [fst snd] in P.
    assert (PP : fuel <> 0).
    { assert (String.length (join "; " (p :: ps)) >= String.length p).
      { destruct ps as [|q ps]; [apply Nat.le_refl|]. change (join "; " (p :: q :: ps)) with (p ++ "; " ++ join "; " (q :: ps))%string.
        rewrite slength_app. lia. }
      destruct p; [congruence|]. cbn [String.length] in *. lia. }
    destruct fuel as [|fuel]; [congruence|].
    assert (H : exists tail rest, join "; " (p :: ps) = (p ++ tail)%string /\ stops tail rest /\
      forall seen', parse_items fuel rest seen' = items_of kvs' seen').
    { destruct ps as [|q ps].
      - exists "", "". inversion F2'; subst. repeat split; [|left; now split|now destruct fuel].
        cbn [join]. now rewrite sapp_nil.
      - exists ("; " ++ join "; " (q :: ps))%string, (" " ++ join "; " (q :: ps))%string. repeat split; [right; reflexivity|].
        intros seen'. apply (IH kvs' F2' NE'); [|congruence].
        change (join "; " (p :: q :: ps)) with (p ++ "; " ++ join "; " (q :: ps))%string in F. rewrite slength_app in F.
        change (String.length ("; " ++ join "; " (q :: ps))) with (2 + String.length (join "; " (q :: ps))) in F. lia. }
    destruct H as (tail & rest & -> & T & R). destruct (P tail rest T) as [A B].
    split; [|intros _]; cbn [parse_items items_of]; rewrite ?A, ?B; destruct (take_item k v seen) as [[i s']|]; rewrite ?R; reflexivity.
Qed.
Lemma item_read n v seen : readable_name n -> take_item n (Some v) seen = Some ([CkPair n v], true).
Proof. intros (_ & _ & D & R). unfold take_item. now rewrite D, R. Qed.

(** the whole header *)
Definition good (c : string * string) : Prop := readable_name (fst c) /\ readable (snd c).
Definition pairs (cs : list (string * string)) : list ck_item := map (fun c => CkPair (fst c) (snd c)) cs.
Lemma items_read cs : Forall good cs -> parse_items (String.length (ua_sends cs)) (ua_sends cs) false = Some (pairs cs).
Proof.
  intros G.
  assert (F2 : Forall2 (fun p kv => part_of p (fst kv) (snd kv)) (map (fun c => (fst c ++ "=" ++ snd c)%string) cs)
    (map (fun c => (fst c, Some (snd c))) cs)).
  { induction G as [|[n v] cs [(N & L & _) V] G IH]; [constructor|]. cbn [map fst snd]. constructor; [|exact IH]. cbn [fst snd] in *.
    apply pair_part; [exact N|exact L|now apply readable_reads]. }
  assert (NE : Forall (fun p => p <> "") (map (fun c => (fst c ++ "=" ++ snd c)%string) cs)).
  { apply Forall_forall. intros p Ip. apply in_map_iff in Ip as ([n v] & <- & _). destruct n; discriminate. }
  destruct (parts_read _ _ F2 NE (String.length (ua_sends cs)) false (Nat.le_refl _)) as [X _]. unfold ua_sends at 2. rewrite X. clear - G.
  generalize false. induction G as [|[n v] cs [N V] G IH]; intros seen; [reflexivity|]. cbn [map items_of fst snd pairs] in *.
  rewrite (item_read _ _ _ N), IH. reflexivity.
Qed.
Lemma pairs_applied cs : Forall good cs -> forall d, apply_items (pairs cs) d = Ok (fold_left (fun d c => dset (fst c) (snd c) d) cs d).
Proof.
  induction cs as [|[n v] cs IH]; intros G d; [reflexivity|]. inversion G as [|? ? [N V] G']; subst. cbn [fst snd] in N.
  destruct N as (N & L & _). cbn [pairs map apply_items fst snd fold_left]. rewrite L, (eqb_neq _ _ N). apply (IH G').
Qed.
Lemma loaded cs : Forall good cs -> load_cookies (ua_sends cs) = Ok (fold_left (fun d c => dset (fst c) (snd c) d) cs []).
Proof.
  intros G. unfold load_cookies. rewrite (items_read cs G). now apply pairs_applied.
Qed.
Lemma last_wins {A} n (cs : list (string * A)) : forall d, dget n (fold_left (fun d c => dset (fst c) (snd c) d) cs d) =
  match dget n (rev cs) with Some v => Some v | None => dget n d end.
Proof.
  induction cs as [|[k v] cs IH]; intros d; [reflexivity|]. cbn [fold_left fst snd rev]. rewrite IH, dget_app. cbn [dget].
  destruct (dget n (rev cs)) as [x|]; [reflexivity|]. rewrite dget_dset. now destruct (k =?s n).
Qed.
