(** Property theorems C66: the random values that sessions, nonces and PKCE verifiers are
    made of.  Model in M_Random.v. *)
From Verif Require Import Base BaseP Json M_State S_State M_Codec M_Token S_Flow M_Random.

(** C66: a value has the length asked for and consists of letters and digits, so that it needs
    no escaping in a URL and, with the lengths the package uses, has the form that session
    keys, PKCE verifiers (RFC 7636) and the other theorems need. *)
Lemma basechr_alnum r : r < 62 -> is_alnum (nth r (la BASECHR) "a"%char) = true.
Proof. intros H. do 62 (destruct r as [|r]; [reflexivity|]). lia. Qed.
Theorem C66_form : forall fuel size g s g', rndstr fuel size g = Some (s, g') -> String.length s = size /\ all_chars is_alnum s = true.
Proof.
  unfold rndstr. induction fuel as [|f IH]; intros [|n] g s g'; cbn [choices]; intros H; try discriminate; try (injection H as <- _; now split).
  destruct (next_word g) as [w g1]. destruct (Nat.ltb_spec (N.to_nat (N.shiftr w 26)) 62) as [L|L].
  - destruct (choices f n g1) as [[t g2]|] eqn:E; [|discriminate]. destruct (IH _ _ _ _ E) as [A B].
    pose proof (basechr_alnum _ L) as C. remember (nth (N.to_nat (N.shiftr w 26)) (la BASECHR) "a"%char) as c eqn:Ec. clear Ec.
    assert (Es : s = String c t) by congruence. rewrite Es. cbn [String.length all_chars]. rewrite A, C, B. split; reflexivity.
  - exact (IH (S n) _ _ _ H).
Qed.
Print Assumptions C66_form.
Corollary C66_session_key : forall fuel g s g', rndstr fuel 32 g = Some (s, g') -> rnd32 s.
Proof. intros fuel g s g' H. exact (C66_form _ _ _ _ _ H). Qed.
Print Assumptions C66_session_key.
Lemma alnum_plain s : all_chars is_alnum s = true -> quote_plus s = s.
Proof.
  induction s as [|c r IH]; [reflexivity|]. cbn [all_chars]. intros H. apply andb_prop in H. destruct H as [A B].
  cbn [quote_plus]. rewrite (IH B). unfold quote_char, M_Codec.unreserved_char. rewrite A. reflexivity.
Qed.
Theorem C66_no_escaping : forall fuel size g s g', rndstr fuel size g = Some (s, g') -> quote_plus s = s.
Proof. intros fuel size g s g' H. apply alnum_plain. exact (proj2 (C66_form _ _ _ _ _ H)). Qed.
Print Assumptions C66_no_escaping.

(** C66: every text of letters and digits can come out, and each character for exactly one of
    the 62 accepted values of 6 bits: no character is more likely than another. *)
Lemma alnum_in c : implb (is_alnum c) (existsb (Ascii.eqb c) (la BASECHR)) = true.
Proof. destruct c as [[] [] [] [] [] [] [] []]; vm_compute; reflexivity. Qed.
Lemma base_length : length (la BASECHR) = 62. Proof. reflexivity. Qed.
Lemma base_nodup : NoDup (la BASECHR).
Proof.
  assert (D : forall l : list ascii, (fix nd (l : list ascii) := match l with [] => true | x :: r => negb (existsb (Ascii.eqb x) r) && nd r end) l = true -> NoDup l).
  { induction l as [|x r IH]; intros H; [constructor|]. apply andb_prop in H. destruct H as [A B]. constructor; [|now apply IH].
    intros I. assert (X : existsb (Ascii.eqb x) r = true) by (apply existsb_exists; exists x; split; [exact I|apply Ascii.eqb_refl]). rewrite X in A. discriminate. }
  apply D. vm_compute. reflexivity.
Qed.
Theorem C66_no_bias : forall c, is_alnum c = true -> exists r, r < 62 /\ forall r', r' < 62 -> (nth r' (la BASECHR) "a"%char = c <-> r' = r).
Proof.
  intros c H. pose proof (alnum_in c) as I. rewrite H in I. cbn [implb] in I. apply existsb_exists in I. destruct I as (d & I & E).
  apply Ascii.eqb_eq in E. subst d. destruct (In_nth _ _ "a"%char I) as (r & L & N). rewrite base_length in L. exists r. split; [exact L|].
  intros r' L'. split; [|intros ->; exact N]. intros X. apply (proj1 (NoDup_nth (la BASECHR) "a"%char) base_nodup); rewrite ?base_length; congruence.
Qed.
Print Assumptions C66_no_bias.

(** ** What is not there: unpredictability *)
Lemma xorshift_r k d : (0 < k)%N -> d = N.shiftr d k -> d = 0%N.
Proof.
  intros K H. destruct (N.eq_dec d 0) as [E|E]; [exact E|]. exfalso. rewrite N.shiftr_div_pow2 in H.
  assert (X : (d / 2 ^ k < d)%N). { apply N.div_lt; [lia|]. apply N.pow_gt_1; lia. } lia.
Qed.
Lemma xorshift_l k m d : (0 < k)%N -> d = N.land (N.shiftl d k) m -> d = 0%N.
Proof.
  intros K H. apply N.bits_inj_iff. intros i. rewrite N.bits_0.
  induction i as [i IH] using (well_founded_induction N.lt_wf_0).
  rewrite H, N.land_spec. destruct (N.lt_ge_cases i k) as [L|L].
  - now rewrite N.shiftl_spec_low.
  - rewrite N.shiftl_spec_high by lia. rewrite IH by lia. reflexivity.
Qed.
Lemma land_lxor a b m : N.land (N.lxor a b) m = N.lxor (N.land a m) (N.land b m).
Proof. apply N.bits_inj_iff. intros i. rewrite !N.land_spec, !N.lxor_spec, !N.land_spec. now destruct (N.testbit a i), (N.testbit b i), (N.testbit m i). Qed.
Lemma inj_of (f : N -> N) : (forall x y, f (N.lxor x y) = N.lxor (f x) (f y)) -> (forall d, d = f d -> d = 0%N) ->
  forall x y, N.lxor x (f x) = N.lxor y (f y) -> x = y.
Proof.
  intros L Z x y H. apply N.lxor_eq. apply Z. rewrite L.
  apply N.lxor_eq. rewrite <- !N.lxor_assoc.
  apply (f_equal (fun z => N.lxor z (N.lxor y (f y)))) in H. rewrite N.lxor_nilpotent in H. rewrite <- H.
  rewrite <- !N.lxor_assoc. f_equal. rewrite !N.lxor_assoc. f_equal. apply N.lxor_comm.
Qed.
Lemma temper_inj x y : temper x = temper y -> x = y.
Proof.
  unfold temper. intros H.
  apply (inj_of (fun z => N.shiftr z 18) (fun a b => N.shiftr_lxor a b 18)) in H; [|intros d; apply xorshift_r; lia].
  apply (inj_of (fun z => N.land (N.shiftl z 15) 4022730752)) in H; [|intros a b; rewrite N.shiftl_lxor; apply land_lxor|intros d; apply xorshift_l; lia].
  apply (inj_of (fun z => N.land (N.shiftl z 7) 2636928640)) in H; [|intros a b; rewrite N.shiftl_lxor; apply land_lxor|intros d; apply xorshift_l; lia].
  apply (inj_of (fun z => N.shiftr z 11) (fun a b => N.shiftr_lxor a b 11)) in H; [|intros d; apply xorshift_r; lia].
  exact H.
Qed.

(** the [n]-th word a generator gives out *)
Definition word (g : gen) (n : nat) : N := nth n (fst (next_words (S n) g)) 0%N.
(** the untempered sequence *)
Definition state_after (n : nat) (g : gen) : gen := snd (next_words n g).
Lemma next_words_S n g : next_words (S n) g = (fst (next_word g) :: fst (next_words n (snd (next_word g))), snd (next_words n (snd (next_word g)))).
Proof. cbn [next_words]. destruct (next_word g) as [w g1]. cbn [fst snd]. now destruct (next_words n g1). Qed.
Lemma next_words_length n : forall g, length (fst (next_words n g)) = n.
Proof. induction n as [|n IH]; intros g; [reflexivity|]. rewrite next_words_S. cbn [fst length]. now rewrite IH. Qed.
Lemma next_state_length g : length g = 624 -> length (snd (next_word g)) = 624.
Proof. intros L. cbn [next_word snd]. rewrite app_length. cbn [length]. destruct g; cbn [length tl] in *; lia. Qed.
Lemma state_length n : forall g, length g = 624 -> length (state_after n g) = 624.
Proof.
  unfold state_after. induction n as [|n IH]; intros g L; [exact L|]. rewrite next_words_S. cbn [snd]. apply IH. now apply next_state_length.
Qed.
Lemma word_state n : forall g, word g n = temper (nth 0 (state_after n g) 0%N).
Proof.
  unfold word, state_after. induction n as [|n IH]; intros g.
  - rewrite next_words_S. reflexivity.
  - rewrite next_words_S. cbn [fst nth]. rewrite IH. now rewrite next_words_S.
Qed.
Lemma state_add m : forall n g, state_after (m + n) g = state_after n (state_after m g).
Proof.
  unfold state_after. induction m as [|m IH]; intros n g; [reflexivity|]. cbn [plus]. rewrite !next_words_S. cbn [snd]. apply IH.
Qed.
(** within one state the next 624 words stand in their order *)
Lemma nth_tl {A} n (l : list A) d : nth n (tl l) d = nth (S n) l d.
Proof. destruct l; [now destruct n|reflexivity]. Qed.
Lemma state_window i : forall j g, length g = 624 -> i + j < 624 -> nth j (state_after i g) 0%N = nth (i + j) g 0%N.
Proof.
  unfold state_after. induction i as [|i IH]; intros j g L H; [reflexivity|]. rewrite next_words_S. cbn [snd].
  rewrite IH by (try (apply next_state_length; exact L); lia). cbn [next_word snd]. rewrite app_nth1; [apply nth_tl|].
  destruct g; cbn [tl length] in *; lia.
Qed.
Lemma state_last g : length g = 624 -> nth 623 (snd (next_word g)) 0%N = twist (nth 0 g 0%N) (nth 1 g 0%N) (nth 397 g 0%N).
Proof.
  intros L. cbn [next_word snd]. assert (E : length (tl g) = 623) by (destruct g; cbn [tl length] in *; lia).
  rewrite app_nth2 by (rewrite E; auto). rewrite E, Nat.sub_diag. reflexivity.
Qed.

(** C66 ends here.  One would expect that values already given out say nothing about the next
    ones.  They do: each word of the generator is determined by three that it gave out
    before, *)
Theorem C66_three_words_determine_one_refuted : forall g1 g2 n1 n2, length g1 = 624 -> length g2 = 624 ->
  word g1 n1 = word g2 n2 -> word g1 (n1 + 1) = word g2 (n2 + 1) -> word g1 (n1 + 397) = word g2 (n2 + 397) ->
  word g1 (n1 + 624) = word g2 (n2 + 624).
Proof.
  intros g1 g2 n1 n2 L1 L2. rewrite !word_state, !state_add.
  assert (M1 := state_length n1 g1 L1). assert (M2 := state_length n2 g2 L2).
  set (h1 := state_after n1 g1) in *. set (h2 := state_after n2 g2) in *. clearbody h1 h2.
  intros A B C. apply temper_inj in A, B, C. rewrite !state_window in B, C by (auto; lia). cbn [plus] in B, C.
  assert (X : forall h, length h = 624 -> nth 0 (state_after 624 h) 0%N = twist (nth 0 h 0%N) (nth 1 h 0%N) (nth 397 h 0%N)).
  { intros h Lh. change 624 with (1 + 623). rewrite state_add. rewrite state_window by (try apply (state_length 1 h Lh); lia).
    cbn [plus]. rewrite <- (state_last h Lh). unfold state_after. now rewrite next_words_S. }
  rewrite !X by assumption. now rewrite A, B, C.
Qed.
Print Assumptions C66_three_words_determine_one_refuted.
(** and all further session keys, nonces and PKCE verifiers by the last 624 words. *)
Theorem C66_past_words_determine_the_next_values_refuted : forall g1 g2, length g1 = 624 -> length g2 = 624 ->
  fst (next_words 624 g1) = fst (next_words 624 g2) ->
  forall fuel size, rndstr fuel size (snd (next_words 624 g1)) = rndstr fuel size (snd (next_words 624 g2)).
Proof.
  intros g1 g2 L1 L2 H. assert (E : g1 = g2); [|now rewrite E].
  apply (nth_ext _ _ 0%N 0%N); [congruence|]. intros n Hn. rewrite L1 in Hn. apply temper_inj.
  assert (W : forall g, length g = 624 -> temper (nth n g 0%N) = nth n (fst (next_words 624 g)) 0%N).
  { intros g L. clear - Hn L. assert (Y : forall k m g', m < k -> nth m (fst (next_words k g')) 0%N = word g' m).
    { unfold word. induction k as [|k IH]; intros m g' Hm; [lia|]. rewrite !next_words_S. destruct m as [|m]; [reflexivity|].
      cbn [fst nth]. rewrite IH by lia. reflexivity. }
    rewrite Y by exact Hn. rewrite word_state. rewrite state_window by (auto; lia). now rewrite Nat.add_0_r. }
  rewrite (W g1 L1), (W g2 L2). now rewrite H.
Qed.
Print Assumptions C66_past_words_determine_the_next_values_refuted.

(** A generator and a session key from it *)
Definition gx : gen := map (fun i => N.of_nat i * 2654435761 mod 4294967296)%N (seq 1 624).
Example C66_ex : length gx = 624 /\ (match rndstr 64 32 gx with Some (s, _) => (String.length s =? 32)%nat && all_chars is_alnum s | None => false end) = true.
Proof. split; vm_compute; reflexivity. Qed.

(** The generator is MT19937: from the state it has after [init_genrand(5489)], in the reference
    implementation of its authors, come the words that implementation gives: the first is
    3499211612, and the 10000th 4123659995 (the value the C++ standard requires of mt19937). *)
Fixpoint seeded (n : nat) (i x : N) : gen :=
  match n with 0 => [] | S m => x :: seeded m (i + 1) (N.land (1812433253 * N.lxor x (N.shiftr x 30) + (i + 1)) 4294967295) end.
(** the words of the state are used up first: the state of the model is 624 words on *)
Fixpoint advance (n : nat) (g : gen) : gen := match n with 0 => g | S m => advance m (snd (next_word g)) end.
Example C66_mt19937 : let g := advance 624 (seeded 624 0 5489) in
  fst (next_word g) = 3499211612%N /\ fst (next_word (advance (99 * 101) g)) = 4123659995%N.
Proof. split; vm_compute; reflexivity. Qed.
