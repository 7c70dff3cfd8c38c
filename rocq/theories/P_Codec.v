(** Round trips of the byte encodings. *)
From Verif Require Import Base BaseP Json JsonP M_Codec S_Codec.
From Coq Require Import ZifyBool ZifyNat Arith.
Ltac Zify.zify_post_hook ::= Z.div_mod_to_equations.

Lemma nat_sweep (f : nat -> bool) m : forallb f (seq 0 m) = true -> forall n, n < m -> f n = true.
Proof. intros H n Hn. rewrite forallb_forall in H. apply H. apply in_seq. lia. Qed.

Definition enc6_ok (url : bool) (n : nat) : bool :=
  match dec6 url (enc6 url n) with Some k => Nat.eqb k n | None => false end
  && negb (Ascii.eqb (enc6 url n) pad) && char_in (enc6 url n) (alphabet url).
Lemma enc6_sweep url n : n < 64 -> enc6_ok url n = true.
Proof. destruct url; (revert n; apply nat_sweep; vm_compute; reflexivity). Qed.
Lemma dec6_enc6 url n : n < 64 -> dec6 url (enc6 url n) = Some n.
Proof.
  intros H. pose proof (enc6_sweep url n H) as G. unfold enc6_ok in G. rewrite !andb_true_iff in G.
  destruct G as [[G _] _]. destruct (dec6 url (enc6 url n)); [|discriminate]. apply Nat.eqb_eq in G. congruence.
Qed.
Lemma enc6_nopad url n : n < 64 -> Ascii.eqb (enc6 url n) pad = false.
Proof.
  intros H. pose proof (enc6_sweep url n H) as G. unfold enc6_ok in G. rewrite !andb_true_iff in G.
  destruct G as [[_ G] _]. now apply negb_true_iff in G.
Qed.
Lemma enc6_in url n : n < 64 -> char_in (enc6 url n) (alphabet url) = true.
Proof. intros H. pose proof (enc6_sweep url n H) as G. unfold enc6_ok in G. now rewrite !andb_true_iff in G. Qed.

Lemma nat_ascii_lt a : nat_of_ascii a < 256.
Proof. apply nat_ascii_bounded. Qed.

(** induction by threes *)
Lemma string_ind3 (P : string -> Prop) :
  P "" -> (forall a, P (String a "")) -> (forall a b, P (String a (String b ""))) ->
  (forall a b c r, P r -> P (String a (String b (String c r)))) -> forall s, P s.
Proof.
  intros H0 H1 H2 H3.
  enough (G : forall n s, String.length s <= n -> P s) by (intros s; exact (G _ s (le_n _))).
  induction n as [|n IH]; intros s Hn.
  - destruct s; [exact H0|simpl in Hn; lia].
  - destruct s as [|a [|b [|c r]]]; auto. apply H3. apply IH. simpl in Hn. lia.
Qed.

Lemma byte_eq a n : n = nat_of_ascii a -> ascii_of_nat n = a.
Proof. intros ->. apply ascii_nat_embedding. Qed.

Theorem b64_roundtrip url s : b64dec url (b64enc url s) = Some s.
Proof.
  induction s as [|a|a b|a b c r IH] using string_ind3; [reflexivity| | |];
    cbn [b64enc b64dec]; cbv zeta;
    pose proof (nat_ascii_lt a) as Ha; try pose proof (nat_ascii_lt b) as Hb; try pose proof (nat_ascii_lt c) as Hc;
    rewrite !dec6_enc6 by lia.
  - rewrite !Ascii.eqb_refl. rewrite (byte_eq a) by lia. reflexivity.
  - rewrite (enc6_nopad url) by lia. rewrite !Ascii.eqb_refl.
    rewrite (byte_eq a) by lia. rewrite (byte_eq b) by lia. reflexivity.
  - rewrite !(enc6_nopad url) by lia. rewrite IH.
    rewrite (byte_eq a) by lia. rewrite (byte_eq b) by lia. rewrite (byte_eq c) by lia. reflexivity.
Qed.

Theorem b64_inj url s t : b64enc url s = b64enc url t -> s = t.
Proof. intros H. pose proof (b64_roundtrip url s) as A. rewrite H, b64_roundtrip in A. congruence. Qed.

(** shape: alphabet characters, at most two pads at the end, length a multiple of 4 *)
Definition in_alpha (url : bool) (c : ascii) : bool := char_in c (alphabet url).
Lemma b64_shape url s : exists body p, b64enc url s = (body ++ p)%string /\
  all_chars (in_alpha url) body = true /\ In p ["";"=";"=="] /\ (String.length body + String.length p) mod 4 = 0.
Proof.
  induction s as [|a|a b|a b c r IH] using string_ind3.
  - exists "", "". simpl. auto.
  - cbn [b64enc]. cbv zeta. pose proof (nat_ascii_lt a).
    exists (String (enc6 url (nat_of_ascii a / 4)) (String (enc6 url (nat_of_ascii a mod 4 * 16)) "")), "==".
    repeat split; [|simpl; auto]. cbn [all_chars]. unfold in_alpha. rewrite !enc6_in by lia. reflexivity.
  - cbn [b64enc]. cbv zeta. pose proof (nat_ascii_lt a). pose proof (nat_ascii_lt b).
    exists (String (enc6 url (nat_of_ascii a / 4)) (String (enc6 url (nat_of_ascii a mod 4 * 16 + nat_of_ascii b / 16))
        (String (enc6 url (nat_of_ascii b mod 16 * 4)) ""))), "=".
    repeat split; [|simpl; auto]. cbn [all_chars]. unfold in_alpha. rewrite !enc6_in by lia. reflexivity.
  - destruct IH as (body & p & E & H1 & H2 & H3). cbn [b64enc]. cbv zeta. rewrite E.
    pose proof (nat_ascii_lt a). pose proof (nat_ascii_lt b). pose proof (nat_ascii_lt c).
    eexists (String _ (String _ (String _ (String _ body)))), p. split; [reflexivity|].
    split; [|split; [exact H2|]].
    + cbn [all_chars]. rewrite H1. unfold in_alpha. rewrite !enc6_in by lia. reflexivity.
    + cbn [String.length]. lia.
Qed.
Lemma alpha_nopad url : in_alpha url pad = false.
Proof. destruct url; reflexivity. Qed.

Lemma strip_lead_stop c l : (forall d, In d l -> d <> c) -> strip_lead c l = l.
Proof.
  destruct l as [|d r]; [reflexivity|]. intros H. simpl. destruct (Ascii.eqb_spec d c); [|reflexivity].
  exfalso. apply (H d); simpl; auto.
Qed.
Lemma all_chars_In f s : all_chars f s = true <-> forall c, In c (la s) -> f c = true.
Proof.
  induction s as [|a s IH]; simpl; [easy|]. rewrite andb_true_iff, IH. intuition; subst; auto.
Qed.
Lemma rstrip_body url body p : all_chars (in_alpha url) body = true -> In p ["";"=";"=="] ->
  rstrip pad (body ++ p)%string = body.
Proof.
  intros H Hp. assert (S : strip_lead pad (rev (la body)) = rev (la body)).
  { apply strip_lead_stop. intros d Hd. apply in_rev in Hd. rewrite all_chars_In in H. apply H in Hd.
    intros ->. now rewrite alpha_nopad in Hd. }
  unfold rstrip. rewrite la_app, rev_app_distr.
  simpl in Hp. destruct Hp as [<-|[<-|[<-|[]]]]; cbn [la rev app];
    cbn [strip_lead]; rewrite ?Ascii.eqb_refl; rewrite S, rev_involutive, sl_la; reflexivity.
Qed.
Theorem b64e_roundtrip s : b64d (b64e s) = Some s.
Proof.
  unfold b64d, b64e. destruct (b64_shape true s) as (body & p & E & H1 & H2 & H3).
  rewrite E, (rstrip_body true) by assumption. rewrite <- (b64_roundtrip true s), E.
  unfold repad. simpl in H2. destruct H2 as [<-|[<-|[<-|[]]]]; cbn [String.length] in H3.
  - replace (String.length body mod 4) with 0 by lia. now rewrite sapp_nil.
  - replace (String.length body mod 4) with 3 by lia. reflexivity.
  - replace (String.length body mod 4) with 2 by lia. reflexivity.
Qed.
Theorem b64e_alphabet s : all_chars (in_alpha true) (b64e s) = true.
Proof.
  unfold b64e. destruct (b64_shape true s) as (body & p & E & H1 & H2 & H3).
  rewrite E, (rstrip_body true) by assumption. exact H1.
Qed.

(** ** quote_plus *)
Definition unquote_step_ok (c : ascii) : bool :=
  let q := quote_char c in
  match q with
  | String d EmptyString =>
      if Ascii.eqb d "%"%char then false
      else if Ascii.eqb d "+"%char then Ascii.eqb c sp else Ascii.eqb c d
  | String p (String h (String l EmptyString)) =>
      Ascii.eqb p "%"%char &&
      match hex_val h, hex_val l with
      | Some a, Some b => Ascii.eqb (ascii_of_nat (a * 16 + b)) c
      | _, _ => false
      end
  | _ => false
  end.
Lemma unquote_step_all c : unquote_step_ok c = true.
Proof. revert c. apply (ascii_sweep _ unquote_step_ok); [auto|vm_compute; reflexivity]. Qed.
Lemma unquote_quote_char c s : unquote_plus (quote_char c ++ s)%string = String c (unquote_plus s).
Proof.
  pose proof (unquote_step_all c) as H. unfold unquote_step_ok in H.
  destruct (quote_char c) as [|p [|h [|l [|]]]]; try discriminate H.
  - cbn [append unquote_plus]. destruct (Ascii.eqb p "%"%char); [discriminate|].
    destruct (Ascii.eqb p "+"%char); apply Ascii.eqb_eq in H; subst; reflexivity.
  - apply andb_true_iff in H. destruct H as [Hp H]. cbn [append unquote_plus]. rewrite Hp.
    destruct (hex_val h); [|discriminate]. destruct (hex_val l); [|discriminate].
    apply Ascii.eqb_eq in H. now rewrite H.
Qed.
Theorem quote_roundtrip s : unquote_plus (quote_plus s) = s.
Proof. induction s as [|c s IH]; [reflexivity|]. cbn [quote_plus]. now rewrite unquote_quote_char, IH. Qed.
Theorem quote_inj s t : quote_plus s = quote_plus t -> s = t.
Proof. intros H. rewrite <- (quote_roundtrip s), <- (quote_roundtrip t). now rewrite H. Qed.

Definition quoted_char (c : ascii) : bool := unreserved_char c || char_in c "%+".
Definition quote_safe (c : ascii) : bool := all_chars quoted_char (quote_char c).
Lemma quote_safe_all c : quote_safe c = true.
Proof. revert c. apply (ascii_sweep _ quote_safe); [auto|vm_compute; reflexivity]. Qed.
Lemma quote_chars s : all_chars quoted_char (quote_plus s) = true.
Proof.
  induction s as [|c s IH]; [reflexivity|]. cbn [quote_plus]. rewrite all_chars_app, IH. fold (quote_safe c). now rewrite (quote_safe_all c).
Qed.
Lemma quote_no c s : quoted_char c = false -> char_in c (quote_plus s) = false.
Proof.
  intros H. pose proof (quote_chars s) as G. rewrite all_chars_In in G.
  destruct (char_in c (quote_plus s)) eqn:E; [|reflexivity]. apply char_in_In in E. apply G in E. congruence.
Qed.
Lemma quote_char_nonempty c : quote_char c <> "".
Proof.
  pose proof (unquote_step_all c) as H. unfold unquote_step_ok in H. intros E. rewrite E in H. discriminate.
Qed.
Lemma quote_nonempty s : s <> "" -> quote_plus s <> "".
Proof.
  destruct s as [|c s]; [easy|]. intros _. cbn [quote_plus].
  destruct (quote_char c) eqn:E; [now apply quote_char_nonempty in E|discriminate].
Qed.

(** ** urlencode / parse_qsl *)
Lemma dec_enc_pair k v : v <> "" -> dec_pair (enc_pair (k, v)) = [(k, v)].
Proof.
  intros Hv. unfold dec_pair, enc_pair. cbn [fst snd].
  replace (split1 "="%char (quote_plus k ++ "=" ++ quote_plus v)%string) with (Some (quote_plus k, quote_plus v)).
  - rewrite eqb_neq by now apply quote_nonempty. now rewrite !quote_roundtrip.
  - symmetry. apply split1_Some. split; [reflexivity|]. now apply quote_no.
Qed.
Lemma enc_pair_no_amp kv : char_in "&"%char (enc_pair kv) = false.
Proof. unfold enc_pair. rewrite !char_in_app. rewrite !(quote_no "&"%char) by reflexivity. reflexivity. Qed.
Theorem urlencode_roundtrip l : Forall (fun kv => snd kv <> "") l -> parse_qsl (urlencode l) = l.
Proof.
  intros H. unfold parse_qsl, urlencode. destruct l as [|kv l]; [reflexivity|].
  change "&" with (String "&"%char "").
  rewrite split_join.
  - induction H as [|[k v] r Hv Hr IH]; [reflexivity|]. cbn [map flat_map]. now rewrite dec_enc_pair, IH.
  - easy.
  - rewrite forallb_forall. intros x Hx. apply in_map_iff in Hx. destruct Hx as (y & <- & _). now rewrite enc_pair_no_amp.
Qed.

(** ** against S_Codec.v *)
Lemma number_nat_hi a : number (firstn 6 (byte_bits a)) = nat_of_ascii a / 4.
Proof. destruct a as [[] [] [] [] [] [] [] []]; reflexivity. Qed.
Lemma number_lt l : number l < 2 ^ List.length l.
Proof.
  unfold number. assert (H : forall l n, fold_left (fun n (b : bool) => 2 * n + (if b then 1 else 0)) l n < (n + 1) * 2 ^ List.length l).
  { induction l0 as [|b l0 IH]; intros n; cbn [fold_left List.length]; [cbn; lia|].
    eapply Nat.lt_le_trans; [apply IH|]. rewrite Nat.pow_succ_r'. generalize (2 ^ List.length l0). intros x. replace ((n + 1) * (2 * x)) with ((2 * n + 1) * x + x) by ring. destruct b.
    - replace ((2 * n + 1 + 1) * x) with ((2 * n + 1) * x + x) by ring. lia.
    - replace ((2 * n + 0 + 1) * x) with ((2 * n + 1) * x) by ring. lia. }
  specialize (H l 0). lia.
Qed.
Lemma number_app l m : number (l ++ m) = number l * 2 ^ List.length m + number m.
Proof.
  unfold number. rewrite fold_left_app. generalize (fold_left (fun n (b : bool) => 2 * n + (if b then 1 else 0)) l 0) as x.
  induction m as [|b m IH]; intros x; cbn [fold_left List.length]; [cbn; lia|].
  rewrite IH. rewrite (IH (2 * 0 + (if b then 1 else 0))). rewrite Nat.pow_succ_r'. generalize (2 ^ List.length m). intros y. destruct b; ring.
Qed.
Lemma get_enc6 url n : n < 64 -> String.get n (rfc4648 url) = Some (enc6 url n).
Proof.
  intros H. pose (f := fun n => match String.get n (rfc4648 url) with Some c => Ascii.eqb c (enc6 url n) | None => false end).
  assert (X : f n = true).
  { apply (nat_sweep f 64); [|exact H]. unfold f. destruct url; vm_compute; reflexivity. }
  unfold f in X. destruct (String.get n (rfc4648 url)); [|discriminate]. apply Ascii.eqb_eq in X. now subst.
Qed.
Lemma sextet_enc url l n : List.length l = 6 -> number l = n -> sextet url (enc6 url n) l.
Proof. intros L <-. split; [exact L|]. apply get_enc6. pose proof (number_lt l) as X. rewrite L in X. exact X. Qed.
Definition nib (l : list bool) := number l.
Lemma bits_split a : exists b7 b6 b5 b4 b3 b2 b1 b0, byte_bits a = [b7; b6; b5; b4; b3; b2; b1; b0] /\
  nat_of_ascii a / 4 = number [b7; b6; b5; b4; b3; b2] /\ nat_of_ascii a mod 4 = number [b1; b0] /\
  nat_of_ascii a / 16 = number [b7; b6; b5; b4] /\ nat_of_ascii a mod 16 = number [b3; b2; b1; b0] /\
  nat_of_ascii a / 64 = number [b7; b6] /\ nat_of_ascii a mod 64 = number [b5; b4; b3; b2; b1; b0].
Proof.
  destruct a as [b0 b1 b2 b3 b4 b5 b6 b7]. exists b7, b6, b5, b4, b3, b2, b1, b0. split; [reflexivity|].
  destruct b0, b1, b2, b3, b4, b5, b6, b7; vm_compute; repeat split; reflexivity.
Qed.
Theorem b64_is_rfc4648 url s : exists txt pads, b64enc url s = (txt ++ pads)%string /\ base64_of url s txt /\
  In pads [""; "="; "=="] /\ (String.length txt + String.length pads) mod 4 = 0.
Proof.
  induction s as [|a|a b|a b c r IH] using string_ind3.
  - exists "", "". split; [reflexivity|]. split; [|split; [cbn; tauto|reflexivity]]. exists [], []. split; [constructor|]. split; [reflexivity|]. split; [constructor|]. apply Nat.lt_0_succ.
  - destruct (bits_split a) as (a7 & a6 & a5 & a4 & a3 & a2 & a1 & a0 & Ba & A1 & A2 & _).
    exists (String (enc6 url (nat_of_ascii a / 4)) (String (enc6 url (nat_of_ascii a mod 4 * 16)) "")), "==".
    split; [reflexivity|]. split; [|split; [cbn; tauto|reflexivity]].
    exists [[a7; a6; a5; a4; a3; a2]; [a1; a0; false; false; false; false]], [false; false; false; false].
    split; [|split; [cbn [la flat_map concat app]; rewrite Ba; reflexivity|split; [repeat constructor|cbn; lia]]].
    cbn [la]. constructor; [|constructor; [|constructor]]; apply sextet_enc; try reflexivity; [now rewrite A1|].
    rewrite A2. change [a1; a0; false; false; false; false] with ([a1; a0] ++ [false; false; false; false])%list.
    rewrite number_app. change (number [false; false; false; false]) with 0. change (2 ^ List.length [false; false; false; false]) with 16. generalize (number [a1; a0]). intros x. lia.
  - destruct (bits_split a) as (a7 & a6 & a5 & a4 & a3 & a2 & a1 & a0 & Ba & A1 & A2 & _).
    destruct (bits_split b) as (b7 & b6 & b5 & b4 & b3 & b2 & b1 & b0 & Bb & _ & _ & B3 & B4 & _).
    exists (String (enc6 url (nat_of_ascii a / 4)) (String (enc6 url (nat_of_ascii a mod 4 * 16 + nat_of_ascii b / 16))
        (String (enc6 url (nat_of_ascii b mod 16 * 4)) ""))), "=".
    split; [reflexivity|]. split; [|split; [cbn; tauto|reflexivity]].
    exists [[a7; a6; a5; a4; a3; a2]; [a1; a0; b7; b6; b5; b4]; [b3; b2; b1; b0; false; false]], [false; false].
    split; [|split; [cbn [la flat_map concat app]; rewrite Ba, Bb; reflexivity|split; [repeat constructor|cbn; lia]]].
    cbn [la]. constructor; [|constructor; [|constructor; [|constructor]]]; apply sextet_enc; try reflexivity; [now rewrite A1| |].
    + rewrite A2, B3. exact (number_app [a1; a0] [b7; b6; b5; b4]).
    + rewrite B4. change [b3; b2; b1; b0; false; false] with ([b3; b2; b1; b0] ++ [false; false])%list. rewrite number_app. change (number [false; false]) with 0. change (2 ^ List.length [false; false]) with 4. generalize (number [b3; b2; b1; b0]). intros x. lia.
  - destruct IH as (txt & pads & E & (gs & fill & G1 & G2 & G3 & G4) & P & L).
    destruct (bits_split a) as (a7 & a6 & a5 & a4 & a3 & a2 & a1 & a0 & Ba & A1 & A2 & _).
    destruct (bits_split b) as (b7 & b6 & b5 & b4 & b3 & b2 & b1 & b0 & Bb & _ & _ & B3 & B4 & _).
    destruct (bits_split c) as (c7 & c6 & c5 & c4 & c3 & c2 & c1 & c0 & Bc & _ & _ & _ & _ & C5 & C6).
    exists (String (enc6 url (nat_of_ascii a / 4)) (String (enc6 url (nat_of_ascii a mod 4 * 16 + nat_of_ascii b / 16))
        (String (enc6 url (nat_of_ascii b mod 16 * 4 + nat_of_ascii c / 64)) (String (enc6 url (nat_of_ascii c mod 64)) txt)))), pads.
    split; [cbn [b64enc append]; now rewrite E|]. split; [|split; [exact P|]].
    + exists ([a7; a6; a5; a4; a3; a2] :: [a1; a0; b7; b6; b5; b4] :: [b3; b2; b1; b0; c7; c6] :: [c5; c4; c3; c2; c1; c0] :: gs), fill.
      split; [|split; [|split; [exact G3|exact G4]]].
      * cbn [la]. repeat (constructor; [apply sextet_enc; [reflexivity|]|]); [now rewrite A1| | |now rewrite C6|exact G1].
        -- rewrite A2, B3. exact (number_app [a1; a0] [b7; b6; b5; b4]).
        -- rewrite B4, C5. exact (number_app [b3; b2; b1; b0] [c7; c6]).
      * cbn [la flat_map concat]. rewrite Ba, Bb, Bc, G2. reflexivity.
    + cbn [String.length]. replace (S (S (S (S (String.length txt)))) + String.length pads) with (String.length txt + String.length pads + 1 * 4) by lia.
      now rewrite Nat.mod_add.
Qed.
Lemma Forall2_in_l {A B} (R : A -> B -> Prop) l m x : Forall2 R l m -> In x l -> exists y, In y m /\ R x y.
Proof. induction 1 as [|a b l m H F IH]; [intros []|]. intros [<-|I]; [exists b; cbn; auto|]. destruct (IH I) as (y & ? & ?). exists y; cbn; auto. Qed.
Lemma char_in_get c : forall s n, String.get n s = Some c -> char_in c s = true.
Proof.
  intros s n H. apply char_in_In. revert n H. induction s as [|d s IH]; intros [|n] H; cbn in H; try discriminate.
  - injection H as <-. now left.
  - right. eapply IH; eauto.
Qed.
Theorem b64e_is_rfc4648 s : base64_of true s (b64e s).
Proof.
  destruct (b64_is_rfc4648 true s) as (txt & pads & E & B & P & L). unfold b64e. rewrite E.
  assert (A : all_chars (in_alpha true) txt = true).
  { destruct B as (gs & fill & G & _). apply all_chars_In. intros c Hc.
    destruct (Forall2_in_l _ _ _ _ G Hc) as (g & _ & _ & X).
    change (rfc4648 true) with b64_url in X. unfold in_alpha, alphabet. apply char_in_get in X. exact X. }
  now rewrite (rstrip_body true txt pads A P).
Qed.
Definition fq_ok (c : ascii) : bool :=
  match quote_char c with
  | String d "" => if char_in c "ABCDEFGHIJKLMNOPQRSTUVWXYZabcdefghijklmnopqrstuvwxyz0123456789_.-~" then Ascii.eqb d c
                   else Ascii.eqb c " " && Ascii.eqb d "+"
  | String p (String h (String l "")) =>
      Ascii.eqb p "%" && negb (char_in c "ABCDEFGHIJKLMNOPQRSTUVWXYZabcdefghijklmnopqrstuvwxyz0123456789_.-~ ") &&
      match index_of h upper_hex 0, index_of l upper_hex 0 with Some i, Some j => Nat.eqb (nat_of_ascii c) (16 * i + j) | _, _ => false end
  | _ => false
  end.
Lemma fq_all c : fq_ok c = true.
Proof. destruct c as [[] [] [] [] [] [] [] []]; vm_compute; reflexivity. Qed.
Lemma index_get c : forall s n k, index_of c s n = Some k -> n <= k /\ String.get (k - n) s = Some c.
Proof.
  induction s as [|d s IH]; intros n k; cbn [index_of]; [discriminate|]. destruct (Ascii.eqb_spec d c).
  - intros H. injection H as <-. split; [lia|]. rewrite Nat.sub_diag. cbn. now subst.
  - intros H. apply IH in H. destruct H as [H1 H2]. split; [lia|]. replace (k - n) with (S (k - S n)) by lia. exact H2.
Qed.
Lemma quote_char_fq c : form_quoted c (quote_char c).
Proof.
  pose proof (fq_all c) as H. unfold fq_ok in H. destruct (quote_char c) as [|d r]; [discriminate|].
  destruct r as [|h r].
  - match type of H with (if ?b then _ else _) = _ => destruct b eqn:E end.
    + apply Ascii.eqb_eq in H. subst d. apply fq_plain. now apply char_in_In.
    + apply andb_true_iff in H. destruct H as [H1 H2]. apply Ascii.eqb_eq in H1, H2. subst. apply fq_space.
  - destruct r as [|l r]; [discriminate|]. destruct r; [|discriminate].
    apply andb_true_iff in H. destruct H as [H H3]. apply andb_true_iff in H. destruct H as [H1 H2]. apply Ascii.eqb_eq in H1. subst d.
    destruct (index_of h upper_hex 0) as [i|] eqn:Ei; [|discriminate]. destruct (index_of l upper_hex 0) as [j|] eqn:Ej; [|discriminate].
    apply index_get in Ei, Ej. rewrite !Nat.sub_0_r in *. apply Nat.eqb_eq in H3.
    eapply fq_percent; [|apply Ei|apply Ej|exact H3]. intros X. apply char_in_In in X. rewrite X in H2. discriminate.
Qed.
Theorem quote_plus_is_form_quoted s : exists l, Forall2 form_quoted (la s) l /\ quote_plus s = String.concat "" l.
Proof.
  induction s as [|c s (l & H1 & H2)]; [exists []; split; constructor|].
  exists (quote_char c :: l). split; [constructor; [apply quote_char_fq|exact H1]|].
  cbn [quote_plus]. rewrite H2. destruct l; cbn [String.concat append]; [now rewrite sapp_nil|reflexivity].
Qed.
