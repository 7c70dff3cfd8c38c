From Verif Require Import Base BaseP Json Msg M_Codec P_Codec M_Cookie S_Cookie.
From Coq Require Import DecimalString.

(** ** value encoding *)
Lemma unesc_esc c r : ck_unesc (ck_esc c ++ r) = String c (ck_unesc r).
Proof.
  destruct c as [[] [] [] [] [] [] [] []];
  first [ reflexivity | destruct r as [|b [|d r]]; reflexivity ].
Qed.
Lemma unesc_escs s : ck_unesc (ck_escs s) = s.
Proof. induction s as [|c s IH]; [reflexivity|]. cbn [ck_escs]. rewrite unesc_esc. now rewrite IH. Qed.
Lemma but_last_app s c : but_last (s ++ String c "")%string = s.
Proof.
  induction s as [|a s IH]; [reflexivity|]. cbn [append]. destruct s as [|b s]; [reflexivity|].
  cbn [append] in IH |- *. cbn [but_last] in *. now rewrite IH.
Qed.
Lemma unquote_quote s : ck_unquote (ck_quote s) = s.
Proof.
  unfold ck_quote. destruct (all_chars ck_legal s && negb (s =?s "")) eqn:E.
  - apply andb_prop in E as [E _]. destruct s as [|c s]; [reflexivity|]. unfold ck_unquote.
    destruct (Ascii.eqb_spec c dquote) as [->|N]; [discriminate|reflexivity].
  - cbn [append]. unfold ck_unquote. rewrite Ascii.eqb_refl. cbn [andb].
    assert (H : ends_with (String dquote "") (ck_escs s ++ String dquote "")%string = true).
    { unfold ends_with. rewrite srev_app. change (srev (String dquote "")) with (String dquote ""). apply starts_with_app. }
    rewrite H, but_last_app. apply unesc_escs.
Qed.

(** ** comparison *)
Lemma lor_0 a b : Nat.lor a b = 0 <-> a = 0 /\ b = 0.
Proof. apply Nat.lor_eq_0_iff. Qed.
Lemma safe_str_cmp_eq a : forall b, safe_str_cmp a b = true <-> a = b.
Proof.
  unfold safe_str_cmp. intros b. destruct (Nat.eqb_spec (String.length a) (String.length b)) as [L|L].
  2:{ split; [discriminate|]. intros ->. contradiction. }
  rewrite Nat.eqb_eq. revert b L. induction a as [|c a IH]; intros [|d b] L; try discriminate; cbn [xor_all].
  - split; reflexivity.
  - rewrite lor_0, Nat.lxor_eq_0_iff, IH by now injection L. split.
    + intros [E ->]. f_equal. rewrite <- (ascii_nat_embedding c), <- (ascii_nat_embedding d). now rewrite E.
    + intros [= -> ->]. auto.
Qed.

(** ** the signature has no bar *)
Lemma hex_no_bar n : n < 16 -> Ascii.eqb bar (hex_lower n) = false.
Proof. intros H. do 16 (destruct n as [|n]; [reflexivity|]). lia. Qed.
Lemma hexdigest_no_bar s : char_in bar (hexdigest s) = false.
Proof.
  induction s as [|c s IH]; [reflexivity|]. cbn [hexdigest char_in].
  rewrite IH. assert (B : nat_of_ascii c < 256) by apply nat_ascii_bounded.
  rewrite hex_no_bar by (apply Nat.div_lt_upper_bound; lia). rewrite hex_no_bar by (apply Nat.mod_upper_bound; lia). reflexivity.
Qed.

(** ** base64 *)
Lemma keep_all f s : all_chars f s = true -> keep_chars f s = s.
Proof. induction s as [|c s IH]; [reflexivity|]. cbn [all_chars keep_chars]. intros H. apply andb_prop in H as [-> H]. now rewrite IH. Qed.
Lemma b64enc_chars s : all_chars (fun c => char_in c (alphabet false) || Ascii.eqb c pad) (b64enc false s) = true.
Proof.
  destruct (b64_shape false s) as (body & p & E & A & P & _). rewrite E, all_chars_app. apply andb_true_intro. split.
  - clear E P. induction body as [|c b IH]; [reflexivity|]. cbn [all_chars] in *. apply andb_prop in A as [A1 A]. unfold in_alpha in A1. rewrite A1. cbn [orb andb]. auto.
  - cbn in P. destruct P as [<-|[<-|[<-|[]]]]; reflexivity.
Qed.
Lemma b64decode_enc s : b64decode (b64enc false s) = Ok s.
Proof. unfold b64decode. rewrite keep_all by apply b64enc_chars. now rewrite b64_roundtrip. Qed.
Lemma b64enc_no_bar s : char_in bar (b64enc false s) = false.
Proof.
  pose proof (b64enc_chars s) as H. induction (b64enc false s) as [|c t IH]; [reflexivity|]. cbn [all_chars char_in] in *.
  apply andb_prop in H as [H1 H2]. rewrite (IH H2), orb_false_r.
  destruct (Ascii.eqb_spec bar c) as [<-|N]; [discriminate|reflexivity].
Qed.
Lemma take_drop n s : (take n s ++ drop n s)%string = s.
Proof. revert s. induction n as [|n IH]; intros [|c s]; try reflexivity. cbn [take drop append]. now rewrite IH. Qed.

(** ** splitting at '::' *)
Definition no_colons (s : string) : bool := negb (contains colons s).
Lemma split_nonnil s : split_colons s <> [].
Proof.
  destruct s as [|c s]; [discriminate|]. cbn [split_colons]. destruct (Ascii.eqb c ":"); [destruct s as [|d s]|].
  - discriminate.
  - destruct (Ascii.eqb d ":"); [discriminate|]. now destruct (split_colons (String d s)).
  - now destruct (split_colons s).
Qed.
Lemma split_one s : forall h, split_colons s = [h] -> h = s.
Proof.
  induction s as [s IHs] using (well_founded_induction (Wf_nat.well_founded_ltof _ String.length)). intros h H.
  destruct s as [|c s]; [now injection H as <-|]. cbn [split_colons] in H. destruct (Ascii.eqb c ":").
  - destruct s as [|d s]; [now injection H as <-|]. destruct (Ascii.eqb d ":"); [destruct (split_colons s) eqn:X; [now apply split_nonnil in X|discriminate]|].
    destruct (split_colons (String d s)) as [|h' t] eqn:Es; [now apply split_nonnil in Es|]. injection H as <- ->. f_equal.
    apply IHs; [unfold Wf_nat.ltof; cbn; lia|exact Es].
  - destruct (split_colons s) as [|h' t] eqn:Es; [now apply split_nonnil in Es|]. injection H as <- ->. f_equal.
    apply IHs; [unfold Wf_nat.ltof; cbn; lia|exact Es].
Qed.
(** scanning is from left to right *)
Lemma split_colons_app n : forall a x l y, String.length a <= n -> split_colons a = l ++ [y] ->
  split_colons (a ++ x) = l ++ split_colons (y ++ x).
Proof.
  induction n as [|n IH]; intros a x l y L E.
  - destruct a; [|cbn in L; lia]. cbn [split_colons] in E. destruct l as [|? [|]]; [injection E as <-; reflexivity|discriminate|discriminate].
  - destruct a as [|c a].
    { cbn [split_colons] in E. destruct l as [|? [|]]; [injection E as <-; reflexivity|discriminate|discriminate]. }
    cbn [String.length] in L.
    assert (K : forall r, String.length r <= n -> (match split_colons r with h :: t => String c h :: t | [] => [String c ""] end) = l ++ [y] ->
        l <> [] -> (match split_colons (r ++ x) with h :: t => String c h :: t | [] => [String c ""] end) = l ++ split_colons (y ++ x)).
    { intros r Lr Er Nl. destruct l as [|l0 l]; [contradiction|]. destruct (split_colons r) as [|h t] eqn:Es; [now apply split_nonnil in Es|].
      cbn [app] in Er. injection Er as <- Et. subst t. rewrite (IH r x (h :: l) y Lr Es). reflexivity. }
    destruct l as [|l0 l].
    { apply split_one in E. subst y. reflexivity. }
    cbn [split_colons] in E. cbn [append split_colons]. destruct (Ascii.eqb c ":") eqn:Ec.
    + destruct a as [|d a].
      { exfalso. destruct l; discriminate. }
      cbn [append]. destruct (Ascii.eqb d ":") eqn:Ed.
      * injection E as <- E. rewrite (IH a x l y); [reflexivity|cbn in L; lia|exact E].
      * apply (K (String d a)); [lia|exact E|discriminate].
    + apply K; [lia|exact E|discriminate].
Qed.

(** a first part that is clean is found *)
Definition clean_head (v : string) : bool := no_colons v && negb (ends_with ":" v).
Lemma clean_tail c v : v <> "" -> clean_head (String c v) = true -> clean_head v = true.
Proof.
  unfold clean_head, no_colons. intros N H. apply andb_prop in H as [H1 H2]. apply andb_true_intro. split.
  - apply negb_true_iff in H1. apply negb_true_iff. cbn [contains] in H1. now apply orb_false_elim in H1 as [_ H1].
  - apply negb_true_iff in H2. apply negb_true_iff. unfold ends_with in *. unfold srev in *. cbn [la] in H2. cbn [rev] in H2.
    rewrite sl_app in H2. destruct (rev (la v)) as [|d l] eqn:E.
    + destruct v; [contradiction|]. cbn [la rev] in E. now destruct (rev (la v)).
    + cbn [sl append] in *. exact H2.
Qed.
Lemma split_clean v s : clean_head v = true -> split_colons (v ++ "::" ++ s) = v :: split_colons s.
Proof.
  induction v as [|c v IH]; intros H; [reflexivity|].
  cbn [append]. destruct v as [|d v].
  - cbn [append split_colons]. destruct (Ascii.eqb c ":") eqn:Ec.
    + exfalso. apply Ascii.eqb_eq in Ec. subst c. discriminate.
    + reflexivity.
  - assert (H' : clean_head (String d v) = true) by (eapply clean_tail; [discriminate|exact H]).
    specialize (IH H'). cbn [append split_colons] in IH |- *. destruct (Ascii.eqb c ":") eqn:Ec.
    + destruct (Ascii.eqb d ":") eqn:Ed.
      * exfalso. apply Ascii.eqb_eq in Ec, Ed. subst c d. unfold clean_head, no_colons in H. apply andb_prop in H as [H _]. discriminate.
      * rewrite IH. reflexivity.
    + rewrite IH. reflexivity.
Qed.
Lemma no_colon_clean t : char_in ":"%char t = false -> clean_head t = true.
Proof.
  intros H. unfold clean_head, no_colons. apply andb_true_intro. split; apply negb_true_iff.
  - induction t as [|c t IH]; [reflexivity|]. cbn [contains char_in] in *. apply orb_false_elim in H as [H1 H2]. rewrite IH by exact H2.
    rewrite orb_false_r. cbn [starts_with colons]. rewrite H1. reflexivity.
  - unfold ends_with. change (srev ":") with (String ":"%char ""). destruct (srev t) as [|c r] eqn:E; [reflexivity|]. cbn [starts_with].
    rewrite andb_true_r. destruct (Ascii.eqb_spec ":"%char c) as [<-|N]; [|reflexivity]. exfalso.
    assert (X : t = (srev r ++ String ":"%char "")%string).
    { rewrite <- (srev_inv t), E. unfold srev. cbn [la rev]. now rewrite sl_app. }
    rewrite X, char_in_app in H. cbn in H. now rewrite orb_true_r in H.
Qed.
Lemma split_none s : no_colons s = true -> split_colons s = [s].
Proof.
  unfold no_colons. intros H. apply negb_true_iff in H. induction s as [|c s IH]; [reflexivity|]. cbn [contains] in H. apply orb_false_elim in H as [H1 H2].
  specialize (IH H2). cbn [split_colons]. destruct (Ascii.eqb c ":") eqn:Ec.
  - destruct s as [|d s]; [reflexivity|]. destruct (Ascii.eqb d ":") eqn:Ed; [|now rewrite IH].
    apply Ascii.eqb_eq in Ec, Ed. subst c d. discriminate.
  - now rewrite IH.
Qed.
Lemma z_str_digits n : (0 <= n)%Z -> all_chars is_digit (z_str n) = true.
Proof.
  intros H. unfold z_str. destruct n as [|p|p]; [reflexivity| |lia].
  cbn [Z.to_int]. unfold NilZero.string_of_int, NilZero.string_of_uint.
  destruct (Pos.to_uint p) eqn:E; try reflexivity; rewrite <- E; clear;
  (induction (Pos.to_uint p); cbn; auto).
Qed.

(** ** the specification's MAC and key are those of the code *)
Lemma hexdigest_hex s : hexdigest s = hex s.
Proof.
  induction s as [|c r IH]; [reflexivity|]. cbn [hexdigest hex]. rewrite IH. clear IH.
  destruct c as [b0 b1 b2 b3 b4 b5 b6 b7]. destruct b0, b1, b2, b3, b4, b5, b6, b7; reflexivity.
Qed.
Lemma signature_eq E seed a b : cookie_signature E seed [a; b] = signature E seed a b.
Proof. unfold cookie_signature, signature. rewrite hexdigest_hex. reflexivity. Qed.
