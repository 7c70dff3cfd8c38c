(** json.loads (json.dumps v) = v for every value *)
From Verif Require Import Base BaseP Json.
From Coq Require Import DecimalString DecimalZ DecimalFacts Decimal.

Lemma ascii_sweep (P : ascii -> Prop) (f : ascii -> bool) :
  (forall c, f c = true -> P c) ->
  forallb (fun n => f (ascii_of_nat n)) (seq 0 256) = true -> forall c, P c.
Proof.
  intros H F c. apply H. rewrite forallb_forall in F.
  rewrite <- (ascii_nat_embedding c). apply F. apply in_seq.
  split; [lia|]. simpl. pose proof (nat_ascii_bounded c). lia.
Qed.

(** one escaped character parses back *)
Definition esc_ok (c : ascii) : bool :=
  match escape_char c with
  | String a "" => Ascii.eqb a c && negb (Ascii.eqb a cquote) && negb (Ascii.eqb a cback)
                   && negb (Nat.ltb (nat_of_ascii a) 32)
  | String a (String b "") => Ascii.eqb a cback && negb (Ascii.eqb b "u"%char) &&
                              match unescape1 b with Some x => Ascii.eqb x c | None => false end
  | String a (String b (String h1 (String h2 (String h3 (String h4 ""))))) =>
      Ascii.eqb a cback && Ascii.eqb b "u"%char &&
      match hex_val h1, hex_val h2, hex_val h3, hex_val h4 with
      | Some i, Some j, Some k, Some l =>
          match utf8 (((i * 16 + j) * 16 + k) * 16 + l) with
          | Some u => u =?s String c ""
          | None => false end
      | _, _, _, _ => false
      end
  | _ => false
  end.
Lemma esc_ok_all c : esc_ok c = true.
Proof. revert c. apply (ascii_sweep _ esc_ok); [auto|vm_compute; reflexivity]. Qed.

Lemma pstr_escape_char c s :
  pstr (escape_char c ++ s)%string =
  match pstr s with Some (t, rest) => Some (String c t, rest) | None => None end.
Proof.
  pose proof (esc_ok_all c) as H. unfold esc_ok in H.
  destruct (escape_char c) as [|a [|b [|h1 [|h2 [|h3 [|h4 [|]]]]]]]; try discriminate.
  - rewrite !andb_true_iff, !negb_true_iff in H. destruct H as [[[H1 H2] H3] H4].
    cbn [append pstr]. rewrite H2, H3, H4. apply Ascii.eqb_eq in H1. now subst.
  - rewrite !andb_true_iff, !negb_true_iff in H. destruct H as [[H1 H2] H3].
    apply Ascii.eqb_eq in H1; subst.
    cbn [append pstr]. change (Ascii.eqb cback cquote) with false.
    rewrite Ascii.eqb_refl, H2. destruct (unescape1 b); [|discriminate].
    apply Ascii.eqb_eq in H3. now subst.
  - rewrite !andb_true_iff in H. destruct H as [[H1 H2] H3].
    apply Ascii.eqb_eq in H1; subst.
    cbn [append pstr]. change (Ascii.eqb cback cquote) with false.
    rewrite Ascii.eqb_refl, H2.
    destruct (hex_val h1), (hex_val h2), (hex_val h3), (hex_val h4); try discriminate.
    destruct (utf8 _); [|discriminate]. apply String.eqb_eq in H3; subst.
    destruct (pstr s) as [[? ?]|]; reflexivity.
Qed.
Lemma pstr_escape s rest : pstr (escape s ++ String cquote rest)%string = Some (s, rest).
Proof.
  induction s as [|c s IH]; simpl escape.
  - cbn [append pstr]. now rewrite Ascii.eqb_refl.
  - rewrite sapp_assoc, pstr_escape_char, IH. reflexivity.
Qed.

(** numbers *)
Lemma uint_chars u : all_chars num_char (NilEmpty.string_of_uint u) = true.
Proof. induction u; simpl; auto. Qed.
Lemma zuint_chars u : all_chars num_char (NilZero.string_of_uint u) = true.
Proof. destruct u; simpl; auto; apply (uint_chars u). Qed.
Lemma dec_chars z : all_chars num_char (dec z) = true.
Proof.
  unfold dec. destruct (Z.to_int z); simpl; [apply zuint_chars|]. apply zuint_chars.
Qed.
Lemma dec_nonempty z : exists c r, dec z = String c r /\ num_char c = true.
Proof.
  pose proof (dec_chars z) as H. unfold dec in *.
  destruct (NilZero.string_of_int (Z.to_int z)) as [|c r] eqn:E.
  - exfalso. destruct (Z.to_int z) as [u|u]; simpl in E; [|discriminate].
    destruct u; simpl in E; discriminate.
  - simpl in H. apply andb_true_iff in H as [H _]. eauto.
Qed.
Lemma dec_parse z : NilZero.int_of_string (dec z) = Some (Z.to_int z).
Proof.
  unfold dec. apply NilZero.isi.
  - destruct z; simpl; try discriminate. intros [= H].
    apply (f_equal Pos.of_uint) in H. rewrite DecimalPos.Unsigned.of_to in H. discriminate.
  - destruct z; simpl; try discriminate. intros [= H].
    apply (f_equal Pos.of_uint) in H. rewrite DecimalPos.Unsigned.of_to in H. discriminate.
Qed.

Definition delim (s : string) : bool :=
  match s with EmptyString => true | String c _ => negb (num_char c) end.

Lemma span_app f a b : all_chars f a = true ->
  match b with EmptyString => True | String c _ => f c = false end ->
  span f (a ++ b)%string = (a, b).
Proof.
  induction a as [|x a IH]; simpl; intros H Hb.
  - destruct b; [reflexivity|]. simpl. now rewrite Hb.
  - apply andb_true_iff in H as [H1 H2]. rewrite H1, IH by assumption. reflexivity.
Qed.
Lemma pnum_dec z rest : delim rest = true -> pnum (dec z ++ rest)%string = Some (VInt z, rest).
Proof.
  intros H. unfold pnum. rewrite span_app.
  - rewrite dec_parse. destruct (dec_nonempty z) as (c & r & -> & _).
    now rewrite DecimalZ.of_to.
  - apply dec_chars.
  - destruct rest; [trivial|]. simpl in H. now apply negb_true_iff in H.
Qed.

(** fuel a value needs *)
Fixpoint vfuel (v : val) : nat :=
  match v with
  | VList l => S ((fix go (l : list val) : nat :=
                     match l with [] => 0 | x :: r => S (vfuel x + go r) end) l)
  | VDict d => S ((fix go (l : list (string * val)) : nat :=
                     match l with [] => 0 | (_, x) :: r => S (vfuel x + go r) end) d)
  | _ => 1
  end.

Fixpoint dumps_list (l : list val) : string :=
  match l with
  | [] => "]" | [x] => json_dumps x ++ "]"
  | x :: r => json_dumps x ++ ", " ++ dumps_list r
  end%string.
Fixpoint dumps_dict (l : list (string * val)) : string :=
  match l with
  | [] => "}"
  | [(k, x)] => quote k ++ ": " ++ json_dumps x ++ "}"
  | (k, x) :: r => quote k ++ ": " ++ json_dumps x ++ ", " ++ dumps_dict r
  end%string.
Fixpoint lfuel (l : list val) : nat := match l with [] => 0 | x :: r => S (vfuel x + lfuel r) end.
Fixpoint dfuel (l : list (string * val)) : nat :=
  match l with [] => 0 | (_, x) :: r => S (vfuel x + dfuel r) end.
Lemma dumps_VList l : json_dumps (VList l) = String "["%char (dumps_list l).
Proof. reflexivity. Qed.
Lemma dumps_VDict l : json_dumps (VDict l) = String "{"%char (dumps_dict l).
Proof. reflexivity. Qed.
Lemma vfuel_VList l : vfuel (VList l) = S (lfuel l). Proof. reflexivity. Qed.
Lemma vfuel_VDict l : vfuel (VDict l) = S (dfuel l). Proof. reflexivity. Qed.

Definition first_ok (s : string) : bool :=
  match s with
  | String c _ => negb (is_ws c) && negb (Ascii.eqb c "]"%char) && negb (Ascii.eqb c "}"%char)
  | _ => false end.
Definition numf (c : ascii) : bool :=
  negb (is_ws c) && negb (Ascii.eqb c "]"%char) && negb (Ascii.eqb c "}"%char) &&
  negb (Ascii.eqb c cquote) && negb (Ascii.eqb c "["%char) && negb (Ascii.eqb c "{"%char) &&
  negb (Ascii.eqb c "n"%char) && negb (Ascii.eqb c "t"%char) && negb (Ascii.eqb c "f"%char).
Lemma num_first' c : negb (num_char c) || numf c = true.
Proof. revert c. apply (ascii_sweep _ (fun c => negb (num_char c) || numf c)); [auto|vm_compute; reflexivity]. Qed.
Lemma num_first c : num_char c = true -> numf c = true.
Proof. intros H. pose proof (num_first' c) as G. now rewrite H in G. Qed.
Lemma first_ok_dumps v rest : first_ok (json_dumps v ++ rest)%string = true.
Proof.
  destruct v as [|[]|z| | |]; try reflexivity. simpl.
  destruct (dec_nonempty z) as (c & r & -> & H). simpl. apply num_first in H. unfold numf in H.
  rewrite !andb_true_iff in H. rewrite !andb_true_iff. tauto.
Qed.
Lemma first_ok_cases s : first_ok s = true ->
  exists c r, s = String c r /\ skip_ws s = s /\ Ascii.eqb c "]"%char = false /\ Ascii.eqb c "}"%char = false.
Proof.
  destruct s as [|c r]; simpl; [discriminate|]. rewrite !andb_true_iff, !negb_true_iff.
  intros [[H1 H2] H3]. exists c, r. now rewrite H1.
Qed.

Lemma dumps_dict_first k x r rest : exists s, (dumps_dict ((k,x)::r) ++ rest)%string = String cquote s.
Proof. destruct r as [|[]]; simpl; eexists; reflexivity. Qed.
Lemma skip_ws_quote s : skip_ws (String cquote s) = String cquote s. Proof. reflexivity. Qed.
Lemma skip_ws_space s : skip_ws (String " "%char s) = skip_ws s. Proof. reflexivity. Qed.
Lemma pval_space n s : pval n (String " "%char s) = pval n s.
Proof. destruct n; [reflexivity|]. cbn [pval]. now rewrite skip_ws_space. Qed.
Lemma plist_space n s : plist n (String " "%char s) = plist n s.
Proof. destruct n; [reflexivity|]. cbn [plist]. now rewrite pval_space. Qed.
Lemma pdict_space n s : pdict n (String " "%char s) = pdict n s.
Proof. destruct n; [reflexivity|]. cbn [pdict]. now rewrite skip_ws_space. Qed.

Lemma pval_dumps v : forall n rest, vfuel v <= n -> delim rest = true ->
  pval n (json_dumps v ++ rest)%string = Some (v, rest).
Proof.
  induction v as [|b|z|s|l H|d H] using val_ind2; intros n rest Hn Hd;
    (destruct n as [|n]; [cbn in Hn; lia|]).
  - reflexivity.
  - destruct b; reflexivity.
  - cbn [json_dumps]. cbn [pval].
    destruct (dec_nonempty z) as (c & r & E & Hc). apply num_first in Hc. unfold numf in Hc.
    rewrite !andb_true_iff, !negb_true_iff in Hc.
    destruct Hc as [[[[[[[[H0 H1] H2] H3] H4] H5] H6] H7] H8].
    rewrite E. cbn [append skip_ws]. rewrite H0, H3, H4, H5. cbn [starts_with].
    rewrite (Ascii.eqb_sym "n"%char), (Ascii.eqb_sym "t"%char), (Ascii.eqb_sym "f"%char), H6, H7, H8. cbn [andb].
    change (String c (r ++ rest)) with (String c r ++ rest)%string. rewrite <- E. now apply pnum_dec.
  - cbn [json_dumps]. unfold quote. cbn [append pval]. rewrite skip_ws_quote, Ascii.eqb_refl.
    rewrite sapp_assoc. cbn [append]. now rewrite pstr_escape.
  - rewrite vfuel_VList in Hn. rewrite dumps_VList. cbn [append pval skip_ws].
    change (is_ws "[") with false. cbn iota. change (Ascii.eqb "[" cquote) with false. cbn iota.
    change (Ascii.eqb "[" "[") with true. cbn iota.
    assert (G : forall l, Forall (fun v => forall n rest, vfuel v <= n -> delim rest = true ->
        pval n (json_dumps v ++ rest)%string = Some (v, rest)) l -> l <> [] -> forall n, lfuel l <= n ->
        plist n (dumps_list l ++ rest)%string = Some (l, rest)).
    { clear. intros l H. induction H as [|x l Hx Hl IH]; [easy|]. intros _ n Hn. cbn [lfuel] in Hn.
      destruct n as [|n]; [lia|]. cbn [plist].
      destruct l as [|y l].
      - cbn [dumps_list]. rewrite sapp_assoc, Hx; [reflexivity|lia|reflexivity].
      - cbn [dumps_list]. rewrite sapp_assoc, Hx; [|lia|reflexivity].
        cbn [append skip_ws]. change (is_ws ",") with false. cbn iota.
        change (Ascii.eqb "," ",") with true. cbn iota. rewrite plist_space.
        fold dumps_list. change (match l with [] => json_dumps y ++ "]" | _ :: _ => json_dumps y ++ ", " ++ dumps_list l end)%string with (dumps_list (y :: l)).
        rewrite IH; [reflexivity|discriminate|lia]. }
    destruct l as [|x l]; [reflexivity|].
    assert (F : first_ok (dumps_list (x :: l) ++ rest)%string = true).
    { destruct l; cbn [dumps_list]; rewrite sapp_assoc; apply first_ok_dumps. }
    apply first_ok_cases in F as (c & r & Er & Es & E1 & E2).
    rewrite Es, Er, E1, <- Er. rewrite G; [reflexivity|assumption|discriminate|lia].
  - rewrite vfuel_VDict in Hn. rewrite dumps_VDict. cbn [append pval skip_ws].
    change (is_ws "{") with false. cbn iota. change (Ascii.eqb "{" cquote) with false. cbn iota.
    change (Ascii.eqb "{" "[") with false. change (Ascii.eqb "{" "{") with true. cbn iota.
    assert (G : forall l, Forall (fun kv => forall n rest, vfuel (snd kv) <= n -> delim rest = true ->
        pval n (json_dumps (snd kv) ++ rest)%string = Some (snd kv, rest)) l -> l <> [] -> forall n, dfuel l <= n ->
        pdict n (dumps_dict l ++ rest)%string = Some (l, rest)).
    { clear. intros l H. induction H as [|[k x] l Hx Hl IH]; [easy|]. intros _ n Hn. cbn [dfuel] in Hn.
      destruct n as [|n]; [lia|]. cbn [snd] in Hx. cbn [pdict].
      destruct l as [|[k2 y] l].
      - cbn [dumps_dict]. rewrite !sapp_assoc. unfold quote. cbn [append]. rewrite skip_ws_quote, Ascii.eqb_refl.
        rewrite sapp_assoc. cbn [append]. rewrite pstr_escape. cbn [skip_ws].
        change (is_ws ":") with false. cbn iota. change (Ascii.eqb ":" ":") with true. cbn iota.
        rewrite pval_space, Hx; [reflexivity|lia|reflexivity].
      - change (dumps_dict ((k, x) :: (k2, y) :: l)) with (quote k ++ ": " ++ json_dumps x ++ ", " ++ dumps_dict ((k2,y) :: l))%string.
        rewrite !sapp_assoc. unfold quote. cbn [append]. rewrite skip_ws_quote, Ascii.eqb_refl.
        rewrite sapp_assoc. cbn [append]. rewrite pstr_escape. cbn [skip_ws].
        change (is_ws ":") with false. cbn iota. change (Ascii.eqb ":" ":") with true. cbn iota.
        rewrite pval_space, Hx; [|lia|reflexivity].
        cbn [append skip_ws]. change (is_ws ",") with false. cbn iota.
        change (Ascii.eqb "," ",") with true. cbn iota. rewrite pdict_space.
        rewrite IH; [reflexivity|discriminate|lia]. }
    destruct d as [|[k x] l]; [reflexivity|].
    destruct (dumps_dict_first k x l rest) as [s Es]. rewrite Es, skip_ws_quote.
    change (Ascii.eqb cquote "}") with false. cbn iota. rewrite <- Es.
    rewrite G; [reflexivity|assumption|discriminate|lia].
Qed.

Lemma len_quote s : 2 <= String.length (quote s).
Proof. unfold quote. cbn [String.length]. rewrite slength_app. cbn. lia. Qed.
Lemma vfuel_len v : vfuel v <= String.length (json_dumps v).
Proof.
  induction v as [|[]|z|s|l H|d H] using val_ind2; try (cbn; lia).
  - cbn [json_dumps vfuel]. destruct (dec_nonempty z) as (? & ? & -> & _). cbn. lia.
  - rewrite dumps_VList, vfuel_VList. cbn [String.length].
    enough (lfuel l <= String.length (dumps_list l)) by lia.
    induction H as [|x l Hx Hl IH]; [cbn; lia|]. destruct l as [|y l]; cbn [lfuel].
    + cbn [dumps_list]. rewrite slength_app. cbn. lia.
    + change (dumps_list (x :: y :: l)) with (json_dumps x ++ ", " ++ dumps_list (y :: l))%string.
      rewrite !slength_app. cbn [lfuel] in IH. cbn [String.length]. lia.
  - rewrite dumps_VDict, vfuel_VDict. cbn [String.length].
    enough (dfuel d <= String.length (dumps_dict d)) by lia.
    induction H as [|[k x] l Hx Hl IH]; [cbn; lia|]. cbn [snd] in Hx. destruct l as [|[k2 y] l]; cbn [dfuel].
    + cbn [dumps_dict]. rewrite !slength_app. cbn. lia.
    + change (dumps_dict ((k, x) :: (k2, y) :: l)) with (quote k ++ ": " ++ json_dumps x ++ ", " ++ dumps_dict ((k2,y) :: l))%string.
      rewrite !slength_app. cbn [dfuel] in IH. cbn [String.length]. lia.
Qed.

Theorem json_roundtrip v : json_loads (json_dumps v) = Some v.
Proof.
  unfold json_loads. pose proof (pval_dumps v (S (S (String.length (json_dumps v)))) "") as H.
  rewrite sapp_nil in H. rewrite H; [reflexivity| |reflexivity].
  pose proof (vfuel_len v). lia.
Qed.
Lemma json_dumps_nonempty v : exists c r, json_dumps v = String c r.
Proof.
  pose proof (vfuel_len v) as H. destruct (json_dumps v); [|eauto].
  destruct v; cbn in H; lia.
Qed.
Lemma json_dumps_inj v w : json_dumps v = json_dumps w -> v = w.
Proof. intros H. pose proof (json_roundtrip v). rewrite H, json_roundtrip in H0. congruence. Qed.
