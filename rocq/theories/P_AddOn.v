(** Lemmas about M_AddOn.v *)
From Verif Require Import Base BaseP Json JsonP Msg M_State M_Ctx M_Codec M_ClientAuth M_Service M_Token
  S_Service P_Ctx P_Codec P_Service M_AddOn S_AddOn.

Lemma val_in_In x l : val_in x (VList l) = true <-> In x l.
Proof.
  cbn [val_in]. rewrite existsb_exists. split.
  - intros (y & I & E). apply val_eqb_eq in E. now subst.
  - intros I. exists x. split; [exact I|now apply val_eqb_eq].
Qed.
Lemma find_first {A} (f : A -> bool) l x : find f l = Some x ->
  exists a b, l = a ++ x :: b /\ f x = true /\ forall y, In y a -> f y = false.
Proof.
  induction l as [|h t IH]; [discriminate|]. cbn [find]. destruct (f h) eqn:F.
  - intros E. injection E as <-. exists [], t. repeat split; auto. intros y [].
  - intros E. destruct (IH E) as (a & b & -> & X & Y). exists (h :: a), b. repeat split; auto. intros y [<-|I]; auto.
Qed.
Lemma find_none {A} (f : A -> bool) l : find f l = None -> forall y, In y l -> f y = false.
Proof. intros H y I. destruct (f y) eqn:F; [|reflexivity]. exfalso. now rewrite (find_none _ _ H _ I) in F. Qed.

Lemma find_is {A} (f : A -> bool) a x b : f x = true -> (forall y, In y a -> f y = false) -> find f (a ++ x :: b) = Some x.
Proof.
  intros X Y. induction a as [|h t IH]; cbn [find app]; [now rewrite X|].
  rewrite (Y h) by now left. apply IH. intros y I. apply Y. now right.
Qed.

(** ** the key *)
Lemma dpop_key_inv E c o c' : dpop_key E c = (Ok o, c') ->
  (exists ka, client_key c = Some ka /\ o = Some ka /\ c' = c) \/
  (client_key c = None /\ exists a, first_common c (VStr a) /\ a <> "" /\ o = Some (dp_mint E a, VStr a) /\
     client_key c' = o /\ exists d, dget "dpop" (add_on c) = Some (VDict d) /\ c' = set_add_on
        (dset "dpop" (VDict (dset "alg" (VStr a) (dset "key" (VStr (dp_mint E a)) d))) (add_on c)) c) \/
  (client_key c = None /\ o = None /\ c' = c /\ forall a, first_common c a -> a = VStr "").
Proof.
  unfold dpop_key, dpop_conf. destruct (dget "dpop" (add_on c)) as [[| | | | |d]|] eqn:D; try discriminate.
  destruct (dget "key" d) as [k|] eqn:K.
  - destruct k; try discriminate. destruct (dget "alg" d) eqn:A; [|discriminate]. intros H. injection H as <- <-. left.
    eexists. unfold client_key. rewrite D, K, A. auto.
  - assert (CK : client_key c = None) by (unfold client_key; now rewrite D, K).
    destruct (dget "dpop_signing_alg_values_supported" (provider_info c)) as [sup|] eqn:S; [|discriminate].
    assert (VI : forall x, val_in x sup = true <-> In x (supported_algs c)).
    { intros x. unfold supported_algs. rewrite S. destruct sup; try (split; [discriminate|intros []]). apply val_in_In. }
    destruct (truthy sup) eqn:T; cbn [negb].
    + destruct (dget "sign_algs" d) as [sa|] eqn:SA; [|discriminate]. destruct sa as [| | | |algs|]; try discriminate.
      assert (AA : allowed_algs c = algs) by (unfold allowed_algs; now rewrite D, SA).
      assert (FF : forall a, first_common c a -> find (fun a => val_in a sup) algs = Some a).
      { intros a (l & r & E1 & E2 & E3). rewrite AA in E1. rewrite E1. apply find_is; [now apply VI|].
        intros y I. destruct (val_in y sup) eqn:V; [|reflexivity]. apply VI in V. now apply E3 in V. }
      destruct (find (fun a => val_in a sup) algs) as [a|] eqn:F.
      * destruct a as [| | |alg| |]; try discriminate. destruct (String.eqb_spec alg "") as [->|N].
        -- intros H. injection H as <- <-. right; right. repeat split; auto. intros a I. apply FF in I. congruence.
        -- intros H. injection H as <- <-. right; left. split; [exact CK|]. exists alg. split.
           ++ destruct (find_first _ _ _ F) as (l & r & E1 & E2 & E3). exists l, r. rewrite AA. repeat split; [exact E1|now apply VI|].
              intros x I J. apply VI in J. rewrite E3 in J by exact I. discriminate.
           ++ repeat split; [exact N| |exists d; auto]. unfold client_key. cbn [add_on set_add_on]. rewrite dget_dset_eq.
              rewrite (dget_dset_neq "alg" "key") by discriminate. now rewrite !dget_dset_eq.
      * intros H. injection H as <- <-. right; right. repeat split; auto. intros a I. apply FF in I. discriminate.
    + intros H. injection H as <- <-. right; right. repeat split; auto. intros a (l & r & _ & I & _).
      unfold supported_algs in I. rewrite S in I. destruct sup as [| | | |[|]|]; try (now destruct I); discriminate.
Qed.
Lemma dpop_key_err E c e c' : dpop_key E c = (Err e, c') -> c' = c.
Proof.
  unfold dpop_key. repeat match goal with |- context [match ?x with _ => _ end] => destruct x end;
    intros H; try discriminate H; now injection H.
Qed.
Lemma dpop_header_inv E h req ep meth kw c r c' : dpop_header E h req ep meth kw c = (r, c') ->
  exists o, dpop_key E c = (o, c') /\
  match o with
  | Err e => r = Err e
  | Ok None => r = Ok h
  | Ok (Some (k, alg)) => r = (let! htu := dict_get ep (provider_info c') in
       let! jws := dp_sign E k (proof_header alg (dp_jwk E k)) (proof_payload (dp_jti E) (VStr meth) htu (dp_now E)) in
       Ok (dset "dpop" jws h))
  end.
Proof.
  unfold dpop_header. destruct (dpop_key E c) as [[[[k alg]|]|e] c1]; intros H; injection H as <- <-; eexists; split; reflexivity.
Qed.
Lemma dpop_header_key E h req ep meth kw c r c' : dpop_header E h req ep meth kw c = (r, c') ->
  forall ka, client_key c = Some ka -> client_key c' = Some ka.
Proof.
  intros H ka K. apply dpop_header_inv in H as (o & D & _). destruct o as [o|e].
  - destruct (dpop_key_inv _ _ _ _ D) as [(ka' & _ & _ & ->)|[(N & _)|(N & _)]]; [exact K|congruence|congruence].
  - apply dpop_key_err in D. now subst.
Qed.

(** ** post methods at the end *)
Lemma run_post_app a b : forall req kw c, run_post (a ++ b) req kw c = bind (run_post a req kw) (fun q => run_post b q kw) c.
Proof.
  induction a as [|m r IH]; intros req kw c; [reflexivity|]. cbn [app run_post]. unfold bind.
  destruct (m req kw c) as [[q|e] c1]; [|reflexivity]. apply IH.
Qed.
Lemma gather_with_par P s c ps : forall args, gather_loop (with_par P s) c ps args = gather_loop s c ps args.
Proof.
  induction ps as [|p r IH]; intros args; [reflexivity|]. cbn [gather_loop]. change (gathered (with_par P s)) with (gathered s).
  now rewrite !IH.
Qed.
Lemma construct_with_par P s args kw c req c' : construct (with_par P s) args kw c = (Ok req, c') ->
  exists req0 kw', construct s args kw c = (Ok req0, c') /\ push_authorization P (s_cls s) req0 kw' c' = (Ok req, c').
Proof.
  unfold construct, do_pre_construct, do_post_construct, gather_request_args, bind, lift, ret.
  cbn [with_par s_pre s_cls s_gather s_conf s_post].
  change (method_args (with_par P s)) with (method_args s).
  destruct (run_pre (s_pre s) args [] (method_args s "pre_construct" kw) c) as [[[a1 p1]|e] c1]; [|discriminate].
  rewrite gather_with_par.
  match goal with |- context [gather_loop s c1 ?x ?y] => destruct (let! a := gather_loop s c1 x y in s_gather s a c1) as [a3|e]; [|discriminate] end.
  destruct (msg_new (s_cls s) a3) as [m|e]; [|discriminate].
  rewrite run_post_app. unfold bind. destruct (run_post (s_post s) m _ c1) as [[q|e] c2]; [|discriminate].
  cbn [run_post]. unfold bind, ret. intros H.
  assert (PC : forall q kw c, snd (push_authorization P (s_cls s) q kw c) = c) by reflexivity.
  match type of H with context [push_authorization P (s_cls s) q ?k c2] => exists q, k; pose proof (PC q k c2) as X;
    destruct (push_authorization P (s_cls s) q k c2) as [[z|e] c3] eqn:PE; [|discriminate] end.
  cbn [snd] in X. subst c3. apply pair_equal_spec in H as [H1 H2]. injection H1 as ->. subst c2. auto.
Qed.
