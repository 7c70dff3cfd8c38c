(** Property theorems C67: answer formats, configuration parameters with placeholders, and the
    TLS context of a server.  Model in M_Util.v. *)
From Verif Require Import Base BaseP Json M_ReqObj M_Util.

(** ** Answer formats *)
(** the content types of each format *)
Definition content_types : dict (list string) :=
  [("json", ["application/json"; "application/jrd+json"]);
   ("jwt", ["application/jwt"]);
   ("urlencoded", ["application/x-www-form-urlencoded"; "text/plain"]);
   ("txt", ["text/plain"; "text/html"])].
Definition is_of (ctype format : string) : Prop := exists l p, In (format, l) content_types /\ In p l /\ starts_with p ctype = true.
(** C67: verify_header with an expected format gives that format if the content type is one
    of its content types; a signed answer where JSON is expected is a JWT; every other
    content type is refused; an answer without content type is taken to be as expected. *)
Theorem C67_expected_format : forall ctype format, In format ["json"; "jwt"; "urlencoded"; "txt"] ->
  verify_header None format = Ok format /\
  (is_of ctype format -> verify_header (Some ctype) format = Ok format) /\
  (~ is_of ctype format -> format = "json" -> is_of ctype "jwt" -> verify_header (Some ctype) format = Ok "jwt") /\
  (~ is_of ctype format -> ~ (format = "json" /\ is_of ctype "jwt") -> verify_header (Some ctype) format = Err WrongContentType).
Proof.
  intros ctype format Hf.
  assert (J : is_of ctype "json" <-> starts_with "application/json" ctype || starts_with "application/jrd+json" ctype = true).
  { rewrite Bool.orb_true_iff. split.
    - intros (l & p & I & P & S). cbn in I. destruct I as [I|[I|[I|[I|[]]]]]; try discriminate. injection I as <-. destruct P as [<-|[<-|[]]]; auto.
    - intros [S|S]; eexists _, _; (split; [left; reflexivity|]); split; [|exact S| |exact S]; cbn; auto. }
  assert (W : is_of ctype "jwt" <-> starts_with "application/jwt" ctype = true).
  { split.
    - intros (l & p & I & P & S). cbn in I. destruct I as [I|[I|[I|[I|[]]]]]; try discriminate. injection I as <-. destruct P as [<-|[]]; auto.
    - intros S; eexists _, _; (split; [right; left; reflexivity|]); split; [|exact S]; cbn; auto. }
  assert (U : is_of ctype "urlencoded" <-> starts_with URL_ENCODED ctype || starts_with "text/plain" ctype = true).
  { rewrite Bool.orb_true_iff. split.
    - intros (l & p & I & P & S). cbn in I. destruct I as [I|[I|[I|[I|[]]]]]; try discriminate. injection I as <-. destruct P as [<-|[<-|[]]]; auto.
    - intros [S|S]; eexists _, _; (split; [right; right; left; reflexivity|]); split; [|exact S| |exact S]; cbn; auto. }
  assert (T : is_of ctype "txt" <-> starts_with "text/plain" ctype || starts_with "text/html" ctype = true).
  { rewrite Bool.orb_true_iff. split.
    - intros (l & p & I & P & S). cbn in I. destruct I as [I|[I|[I|[I|[]]]]]; try discriminate. injection I as <-. destruct P as [<-|[<-|[]]]; auto.
    - intros [S|S]; eexists _, _; (split; [right; right; right; left; reflexivity|]); split; [|exact S| |exact S]; cbn; auto. }
  cbn [In] in Hf. unfold verify_header, match_to_.
  destruct Hf as [<-|[<-|[<-|[<-|[]]]]]; cbn [String.eqb Ascii.eqb Bool.eqb]; (split; [reflexivity|]); rewrite ?J, ?W, ?U, ?T;
    repeat match goal with |- context [if ?b then _ else _] => destruct b end; intuition (try congruence; try discriminate).
Qed.
Print Assumptions C67_expected_format.
(** C67: without an expected format it is found from the content type, text if it is none of
    the others; and no other format is known. *)
Theorem C67_found_format : forall ctype,
  verify_header (Some ctype) "" = Ok (if starts_with "application/json" ctype || starts_with "application/jrd+json" ctype then "json"
                                      else if starts_with "application/jwt" ctype then "jwt"
                                      else if starts_with "application/x-www-form-urlencoded" ctype then "urlencoded" else "txt") /\
  (forall format, ~ In format [""; "json"; "jwt"; "urlencoded"; "txt"] -> verify_header (Some ctype) format = Err ValueError).
Proof.
  intros ctype. split; [reflexivity|]. intros format N. unfold verify_header. cbn [In] in N.
  rewrite (eqb_neq format ""), (eqb_neq format "json"), (eqb_neq format "jwt"), (eqb_neq format "urlencoded"), (eqb_neq format "txt"); [reflexivity|..]; intros ->; apply N; auto 10.
Qed.
Print Assumptions C67_found_format.
(** Media types are case-insensitive and end where their parameters begin; here they are
    compared as prefixes, byte by byte. *)
Theorem C67_media_types_refuted :
  verify_header (Some "Application/JSON") "json" = Err WrongContentType /\ verify_header (Some "application/json-seq") "json" = Ok "json".
Proof. split; reflexivity. Qed.
Print Assumptions C67_media_types_refuted.
(** get_value_type does not look at the content type if nothing is expected. *)
Theorem C67_value_type_refuted : exists ctype, verify_header (Some ctype) "" = Ok "json" /\ get_value_type (Some ctype) "" = Ok "urlencoded".
Proof. exists "application/json". split; reflexivity. Qed.
Print Assumptions C67_value_type_refuted.

(** ** Parameters *)
(** the value that counts: the one in lower case unless it is empty, else the one in upper case *)
Definition given (lc uc : string) (config : dict val) (v : val) : Prop :=
  truthy v = true /\ (dget lc config = Some v \/ (otruthy (dget lc config) = false /\ dget uc config = Some v)).
Definition absent (lc uc : string) (config : dict val) : Prop :=
  otruthy (dget lc config) = false /\ otruthy (dget uc config) = false.
Lemma value_given lc uc config v : given lc uc config v ->
  (let low := match dget lc config with Some v => v | None => VNone end in
   if truthy low then low else match dget uc config with Some v => v | None => VNone end) = v.
Proof.
  intros [T [H|[F H]]]; cbv zeta.
  - rewrite H. now rewrite T.
  - unfold otruthy in F. destruct (dget lc config) as [w|]; [rewrite F|]; now rewrite H.
Qed.
(** C67: replace touches no other setting; *)
Theorem C67_replace_other_settings : forall fmt lc uc key config p, p <> lc -> p <> uc ->
  dget p (snd (replace_param fmt lc uc key config)) = dget p config.
Proof.
  intros fmt lc uc key config p P1 P2. unfold replace_param.
  set (low := match dget lc config with Some v => v | None => VNone end).
  assert (C : forall v, dget p (dset lc v (if truthy low then config else ddel uc config)) = dget p config).
  { intros v. rewrite dget_dset_neq by congruence. destruct (truthy low); [reflexivity|]. now rewrite dget_ddel_neq by congruence. }
  assert (C' : dget p (if truthy low then config else ddel uc config) = dget p config).
  { destruct (truthy low); [reflexivity|]. now rewrite dget_ddel_neq by congruence. }
  destruct (truthy (if truthy low then low else _)); [|reflexivity].
  destruct key as [k|]; [|apply C].
  destruct (if truthy low then low else _); cbn [snd]; try apply C'.
  - destruct (contains _ _); [|apply C']. destruct (fmt _); [apply C|apply C'].
  - destruct (rbind _ _); [apply C|apply C'].
Qed.
Print Assumptions C67_replace_other_settings.
(** without arguments it moves the setting to its lower case name; with them it fills the
    placeholders of a text that has them, and of those entries of a list that have them. *)
Theorem C67_replace : forall fmt lc uc key config v, lc <> uc -> given lc uc config v ->
  let after := replace_param fmt lc uc key config in
  match key, v with
  | None, _ => fst after = Ok tt /\ dget lc (snd after) = Some v
  | Some k, VStr s => contains (placeholder k) s = true -> forall s', fmt s = Ok s' -> fst after = Ok tt /\ dget lc (snd after) = Some (VStr s')
  | Some k, VList l => forall ts, l = map VStr ts -> (forall s, In s ts -> exists s', fmt s = Ok s') ->
      exists ts', fst after = Ok tt /\ dget lc (snd after) = Some (VList (map VStr ts')) /\
        Forall2 (fun s s' => if contains (placeholder k) s then fmt s = Ok s' else s' = s) ts ts'
  | Some _, _ => True
  end.
Proof.
  intros fmt lc uc key config v N G. pose proof (value_given lc uc config v G) as V. cbv zeta in *. unfold replace_param. rewrite V.
  destruct G as [T _]. rewrite T.
  destruct key as [k|].
  - destruct v as [|b|n|s|l|d]; auto.
    + intros C s' F. rewrite C, F. cbn. split; [reflexivity|]. apply dget_dset_eq.
    + intros ts El F. subst l.
      assert (X : texts_of (map VStr ts) = Ok ts). { clear. induction ts as [|s r IH]; [reflexivity|]. cbn. now rewrite IH. }
      rewrite X. cbn [rbind].
      assert (Y : exists ts', format_all fmt k ts = Ok ts' /\ Forall2 (fun s s' => if contains (placeholder k) s then fmt s = Ok s' else s' = s) ts ts').
      { clear - F. induction ts as [|s r IH]; [exists []; split; constructor|].
        destruct IH as (r' & E & A); [intros x Hx; apply F; now right|]. cbn [format_all]. unfold format_one at 1.
        destruct (contains (placeholder k) s) eqn:C.
        - destruct (F s (or_introl eq_refl)) as (s' & Fs). rewrite Fs. cbn [rbind]. rewrite E. cbn [rbind]. exists (s' :: r'). split; [reflexivity|].
          constructor; [now rewrite C|exact A].
        - cbn [rbind]. rewrite E. cbn [rbind]. exists (s :: r'). split; [reflexivity|]. constructor; [now rewrite C|exact A]. }
      destruct Y as (ts' & E & A). rewrite E. exists ts'. cbn. split; [reflexivity|]. split; [apply dget_dset_eq|exact A].
  - cbn. split; [reflexivity|]. apply dget_dset_eq.
Qed.
Print Assumptions C67_replace.
(** With arguments, a text given in upper case and without a placeholder is lost. *)
Theorem C67_replace_loses_a_setting_refuted : exists fmt lc uc k config v, given lc uc config v /\
  fst (replace_param fmt lc uc (Some k) config) = Ok tt /\ absent lc uc (snd (replace_param fmt lc uc (Some k) config)).
Proof.
  exists (fun s => Ok s), "base_url", "BASE_URL", "domain", [("BASE_URL", VStr "https://rp.example")], (VStr "https://rp.example").
  split; [split; [reflexivity|right; split; reflexivity]|]. split; [reflexivity|]. split; reflexivity.
Qed.
Print Assumptions C67_replace_loses_a_setting_refuted.
(** C67: set_param gives the instance the value that counts, with its placeholders filled, and
    leaves it alone if there is none. *)
Theorem C67_set_param : forall fmt lc uc config,
  (forall v, given lc uc config v -> set_param fmt lc uc None config = Ok (Some v)) /\
  (forall k s, given lc uc config (VStr s) ->
     set_param fmt lc uc (Some k) config = if contains (placeholder k) s then (let! s' := fmt s in Ok (Some (VStr s'))) else Ok (Some (VStr s))) /\
  (forall k l, given lc uc config (VList l) ->
     (In (VStr (placeholder k)) l -> set_param fmt lc uc (Some k) config = Err AttributeError) /\
     (~ In (VStr (placeholder k)) l -> set_param fmt lc uc (Some k) config = Ok (Some (VList l)))) /\
  (forall k d, given lc uc config (VDict d) ->
     set_param fmt lc uc (Some k) config = if dhas (placeholder k) d then Err AttributeError else Ok (Some (VDict d))) /\
  (forall key, absent lc uc config -> set_param fmt lc uc key config = Ok None).
Proof.
  intros fmt lc uc config. split; [|split; [|split; [|split]]].
  - intros v G. pose proof (value_given lc uc config v G) as V. cbv zeta in V. unfold set_param. rewrite V. destruct G as [T _]. now rewrite T.
  - intros k s G. pose proof (value_given lc uc config _ G) as V. cbv zeta in V. unfold set_param. rewrite V. destruct G as [T _]. rewrite T.
    unfold format_one. now destruct (contains _ s).
  - intros k l G. pose proof (value_given lc uc config _ G) as V. cbv zeta in V. unfold set_param. rewrite V. destruct G as [T _]. rewrite T.
    assert (X : existsb (fun v => match v with VStr s => s =?s placeholder k | _ => false end) l = true <-> In (VStr (placeholder k)) l).
    { rewrite existsb_exists. split.
      - intros (v & I & E). destruct v; try discriminate E. apply eqb_true_iff in E. now rewrite <- E.
      - intros I. exists (VStr (placeholder k)). split; [exact I|apply eqb_refl]. }
    destruct (existsb _ l); split; intros I; try reflexivity; [destruct I; now apply X|apply X in I; discriminate].
  - intros k d G. pose proof (value_given lc uc config _ G) as V. cbv zeta in V. unfold set_param. rewrite V. destruct G as [T _]. now rewrite T.
  - intros key [A B]. unfold set_param. unfold otruthy in *.
    destruct (dget lc config) as [a|]; cbn [truthy]; rewrite ?A; destruct (dget uc config) as [b|]; cbn [truthy]; rewrite ?B; reflexivity.
Qed.
Print Assumptions C67_set_param.

(** ** The TLS context *)
Definition setting (config : dict val) (param : string) : val := match lower_or_upper config param None with Some v => v | None => VNone end.
(** C67: a setting is the one spelt in lower case, if that is there and not empty, else the
    one spelt in upper case. *)
Theorem C67_setting : forall config param,
  (forall v, dget (lower param) config = Some v -> truthy v = true -> setting config param = v) /\
  ((forall v, dget (lower param) config = Some v -> truthy v = false) ->
     setting config param = match dget (upper param) config with Some v => v | None => VNone end).
Proof.
  intros config param. unfold setting, lower_or_upper. split.
  - intros v E T. rewrite E. cbn [otruthy]. now rewrite T.
  - intros H. destruct (dget (lower param) config) as [v|]; cbn [otruthy]; [rewrite (H v eq_refl)|]; now destruct (dget (upper param) config).
Qed.
Print Assumptions C67_setting.
(** C67: there is a TLS context only with both a certificate and a key, which are read from
    the given directory unless their path is absolute; clients must show a certificate if
    'verify_user' is 'required', may if it is 'optional', and are not asked without it; any
    other value stops the server. *)
Theorem C67_tls_context : forall dir config,
  (truthy (setting config "server_cert") = false -> create_context dir config = Ok None) /\
  (forall c, setting config "server_cert" = VStr c -> c <> "" -> truthy (setting config "server_key") = false -> create_context dir config = Ok None) /\
  (forall c k, setting config "server_cert" = VStr c -> c <> "" -> setting config "server_key" = VStr k -> k <> "" ->
     (truthy (setting config "verify_user") = false -> create_context dir config = Ok (Some (mktls (in_dir dir c) (in_dir dir k) CertNone None))) /\
     (forall u, setting config "verify_user" = VStr u -> u <> "" -> u <> "optional" -> u <> "required" -> create_context dir config = Err OtherError) /\
     (forall u, setting config "verify_user" = VStr u -> u = "optional" \/ u = "required" ->
        forall x, create_context dir config = Ok x -> exists ca, x = Some (mktls (in_dir dir c) (in_dir dir k) (if u =?s "required" then CertRequired else CertOptional) ca))).
Proof.
  intros dir config.
  assert (F : forall p, truthy (setting config p) = false -> file_param dir config p = Ok None).
  { intros p. unfold setting, file_param. destruct (lower_or_upper config p None) as [v|]; [intros ->; reflexivity|reflexivity]. }
  assert (S : forall p s, setting config p = VStr s -> s <> "" -> file_param dir config p = Ok (Some (in_dir dir s))).
  { intros p s. unfold setting, file_param. destruct (lower_or_upper config p None) as [v|]; [|discriminate]. intros -> N.
    assert (T : truthy (VStr s) = true) by (cbn; now rewrite (eqb_neq s "" N)). now rewrite T. }
  split; [|split].
  - intros C. unfold create_context. now rewrite (F _ C).
  - intros c C N K. unfold create_context. rewrite (S _ _ C N). cbn [rbind]. now rewrite (F _ K).
  - intros c k C NC K NK. unfold create_context. rewrite (S _ _ C NC). cbn [rbind]. rewrite (S _ _ K NK). cbn [rbind].
    fold (setting config "verify_user"). split; [|split].
    + intros ->. reflexivity.
    + intros u U NU N1 N2. rewrite U. assert (T : truthy (VStr u) = true) by (cbn; now rewrite (eqb_neq u "" NU)). rewrite T.
      destruct (string_dec u "optional") as [|_]; [contradiction|]. destruct (string_dec u "required") as [|_]; [contradiction|].
      match goal with |- rbind ?m _ = _ => assert (M : m = Err OtherError); [|now rewrite M] end.
      clear - N1 N2.
      repeat match goal with |- context [match ?s with EmptyString => _ | String _ _ => _ end] => destruct s as [|[[] [] [] [] [] [] [] []] ?]; try reflexivity end;
      try (exfalso; now apply N1); try (exfalso; now apply N2).
    + intros u U E x. rewrite U. destruct E as [-> | ->]; cbn [truthy String.eqb negb rbind].
      * destruct (match lower_or_upper config "ca_bundle" None with Some v => _ | None => _ end); cbn [rbind]; intros H; [|discriminate]. injection H as <-. eauto.
      * destruct (match lower_or_upper config "ca_bundle" None with Some v => _ | None => _ end); cbn [rbind]; intros H; [|discriminate]. injection H as <-. eauto.
Qed.
Print Assumptions C67_tls_context.

Example C67_ex :
  given "redirect_uris" "REDIRECT_URIS" [("REDIRECT_URIS", VList [VStr "https://{domain}/cb"; VStr "https://x.example/"])] (VList [VStr "https://{domain}/cb"; VStr "https://x.example/"]) /\
  snd (replace_param (fun s => Ok (if s =?s "https://{domain}/cb" then "https://rp.example/cb" else s)) "redirect_uris" "REDIRECT_URIS" (Some "domain")
    [("REDIRECT_URIS", VList [VStr "https://{domain}/cb"; VStr "https://x.example/"])]) = [("redirect_uris", VList [VStr "https://rp.example/cb"; VStr "https://x.example/"])] /\
  create_context "/etc/rp" [("server_cert", VStr "certs/c.pem"); ("SERVER_KEY", VStr "/keys/k.pem"); ("verify_user", VStr "required"); ("ca_bundle", VStr "ca.pem")] =
    Ok (Some (mktls "/etc/rp/certs/c.pem" "/keys/k.pem" CertRequired (Some "ca.pem"))) /\
  is_of "application/json; charset=utf-8" "json".
Proof.
  split; [split; [reflexivity|right; split; reflexivity]|]. split; [reflexivity|]. split; [reflexivity|].
  exists ["application/json"; "application/jrd+json"], "application/json". split; [now left|]. split; [now left|reflexivity].
Qed.
