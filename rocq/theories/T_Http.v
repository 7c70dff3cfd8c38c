(** Property theorems C46: the HTTP layer.  Model in M_Http.v. *)
From Verif Require Import Base BaseP Json Msg M_Ctx M_Http.
From Coq Require Import DecimalString.

(** ** specification *)
(** the argument a request is made with: the caller's, else the configured one, else that
    redirects are not followed *)
Definition argument (configured caller : dict val) (k : string) : option val :=
  match dget k caller with
  | Some v => Some v
  | None => match dget k configured with
            | Some v => Some v
            | None => if k =?s "allow_redirects" then Some (VBool false) else None
            end
  end.
Definition in_jar (j : jar) (domain path name : string) : option string := dget name (sub path (sub domain j)).

(** ** arguments *)
Lemma call_args req ck cb u m kw h s o h' : http_call req ck cb u m kw h = (s, o, h') ->
  s = mksent m u (dupdate (hl_args h) kw) /\ hl_args h' = hl_args h.
Proof.
  unfold http_call. destruct (req _) as [[setc r]|e].
  - destruct (receive_cookies ck setc (hl_jar h)) as [[|] j]; intros H; injection H as <- _ <-; auto.
  - intros H; injection H as <- _ <-; auto.
Qed.
Theorem C46_each_call_has_its_own_arguments : forall configured calls outs h,
  NoDup (dkeys configured) -> Forall (fun c => NoDup (dkeys (cl_kwargs c))) calls ->
  http_calls calls (httplib_new configured) = (outs, h) ->
  Forall2 (fun c o => sn_url (fst o) = cl_url c /\ sn_method (fst o) = cl_method c /\
             forall k, dget k (sn_args (fst o)) = argument configured (cl_kwargs c) k) calls outs.
Proof.
  intros configured calls outs h N NC.
  assert (G : forall calls (NC : Forall (fun c => NoDup (dkeys (cl_kwargs c))) calls) lib outs h,
    hl_args lib = dupdate [("allow_redirects", VBool false)] configured -> http_calls calls lib = (outs, h) ->
    Forall2 (fun c o => sn_url (fst o) = cl_url c /\ sn_method (fst o) = cl_method c /\
             forall k, dget k (sn_args (fst o)) = argument configured (cl_kwargs c) k) calls outs).
  { clear calls NC outs h. induction calls as [|c r IH]; intros NC lib outs h A H; cbn [http_calls] in H.
    - injection H as <- <-. constructor.
    - destruct (http_call _ _ _ _ _ _ lib) as [[s o] h1] eqn:C. destruct (http_calls r h1) as [rest h2] eqn:R. injection H as <- <-.
      apply call_args in C as [-> A1]. inversion NC as [|? ? NC1 NC2]; subst. constructor.
      + cbn [fst sn_url sn_method sn_args]. repeat split. intros k. unfold argument. rewrite dget_dupdate_NoDup by exact NC1.
        destruct (dget k (cl_kwargs c)); [reflexivity|]. rewrite A, dget_dupdate_NoDup by exact N.
        destruct (dget k configured); [reflexivity|]. cbn [dget]. rewrite eqb_sym. destruct (k =?s "allow_redirects"); reflexivity.
      + apply (IH NC2 h1 rest h2); [congruence|exact R]. }
  intros H. apply (G calls NC (httplib_new configured) outs h eq_refl H).
Qed.
Print Assumptions C46_each_call_has_its_own_arguments.
Theorem C46_redirects_are_not_followed : forall configured calls outs h,
  NoDup (dkeys configured) -> Forall (fun c => NoDup (dkeys (cl_kwargs c))) calls ->
  http_calls calls (httplib_new configured) = (outs, h) -> dget "allow_redirects" configured = None ->
  Forall2 (fun c o => dget "allow_redirects" (cl_kwargs c) = None -> dget "allow_redirects" (sn_args (fst o)) = Some (VBool false)) calls outs.
Proof.
  intros configured calls outs h N NC H D. pose proof (C46_each_call_has_its_own_arguments _ _ _ _ N NC H) as F.
  clear H NC. induction F as [|c o l l' (_ & _ & F1) F IH]; constructor; [|exact IH].
  intros K. rewrite F1. unfold argument. now rewrite K, D.
Qed.
Print Assumptions C46_redirects_are_not_followed.
(** certificates are checked as the handler was told, unless its HTTP parameters were
    given, which then decide alone *)
Theorem C46_certificates_are_checked : forall verify_ssl httpc calls outs h,
  NoDup (dkeys httpc) -> Forall (fun c => NoDup (dkeys (cl_kwargs c))) calls ->
  http_calls calls (client_http (handler_httpc verify_ssl httpc)) = (outs, h) ->
  Forall2 (fun c o => dget "verify" (cl_kwargs c) = None ->
    dget "verify" (sn_args (fst o)) = match httpc with [] => Some verify_ssl | _ => dget "verify" httpc end) calls outs.
Proof.
  intros v p calls outs h N NC H. unfold client_http in H.
  assert (NH : NoDup (dkeys (handler_httpc v p))) by (destruct p; [repeat constructor; auto|exact N]).
  pose proof (C46_each_call_has_its_own_arguments _ _ _ _ NH NC H) as F.
  clear H NC. induction F as [|c o l l' (_ & _ & F1) F IH]; constructor; [|exact IH].
  intros K. rewrite F1. unfold argument. rewrite K. destruct p as [|kv r]; [reflexivity|]. cbn [handler_httpc].
  destruct (dget "verify" (kv :: r)); reflexivity.
Qed.
Print Assumptions C46_certificates_are_checked.
Theorem C46_parameters_from_configuration : forall config,
  dget "verify" (get_http_params config) =
    (match dget "verify" config with
     | Some VNone | None => match dget "verify_ssl" config with Some v => Some v | None => Some (VBool true) end
     | Some v => Some v
     end) /\
  (forall v, dget "cert" (get_http_params config) = Some v -> otruthy (dget "client_cert" config) = true).
Proof.
  intros config. unfold get_http_params. cbn [dget String.eqb]. split.
  - destruct (dget "verify" config) as [[]|], (dget "verify_ssl" config); reflexivity.
  - intros v. destruct (otruthy (dget "client_cert" config)); [reflexivity|]. cbn. destruct (dget "verify" config) as [[]|]; discriminate.
Qed.
Print Assumptions C46_parameters_from_configuration.

(** ** the jar *)
Lemma in_jar_set d p n v j d' p' n' : in_jar (jar_set d p n v j) d' p' n' =
  if (d =?s d') && (p =?s p') && (n =?s n') then Some v else in_jar j d' p' n'.
Proof.
  unfold in_jar, jar_set. unfold sub at 2. destruct (String.eqb_spec d d') as [<-|N].
  - rewrite dget_dset_eq. unfold sub at 1. destruct (String.eqb_spec p p') as [<-|P].
    + rewrite dget_dset_eq. cbn [andb]. destruct (String.eqb_spec n n') as [<-|Q]; [apply dget_dset_eq|now rewrite dget_dset_neq].
    + rewrite dget_dset_neq by exact P. cbn [andb]. reflexivity.
  - rewrite dget_dset_neq by exact N. reflexivity.
Qed.
Definition cookie_key (x : string * morsel) : string * string * string := (mo_domain (snd x), mo_path (snd x), fst x).
(** the value last received for a cookie *)
Fixpoint last_received (l : list (string * morsel)) (d p n : string) (old : option string) : option string :=
  match l with
  | [] => old
  | (n', m) :: r => last_received r d p n
      (if (mo_domain m =?s d) && (mo_path m =?s p) && (n' =?s n) then Some (cookie_value (mo_coded m)) else old)
  end.
Theorem C46_cookies_are_kept : forall l j d p n, Forall (fun x => mo_version (snd x) = "") l ->
  exists j', set_cookies l j = (Ok tt, j') /\ in_jar j' d p n = last_received l d p n (in_jar j d p n).
Proof.
  induction l as [|[n' m] r IH]; intros j d p n F; cbn [set_cookies last_received].
  - eauto.
  - inversion F as [|? ? F1 F2]; subst. cbn [snd] in F1. unfold set_one. rewrite F1. cbn [val_eqb].
    cbn [String.eqb]. destruct (IH (jar_set (mo_domain m) (mo_path m) n' (cookie_value (mo_coded m)) j) d p n F2) as (j' & E1 & E2).
    exists j'. split; [exact E1|]. rewrite E2, in_jar_set. reflexivity.
Qed.
Print Assumptions C46_cookies_are_kept.
Theorem C46_quotes_are_taken_off : forall v, cookie_value (quote_char ++ v ++ quote_char) = v /\
  (starts_with quote_char v = false -> cookie_value v = v).
Proof.
  intros v. unfold cookie_value. split.
  - rewrite starts_with_app. rewrite (proj2 (ends_with_iff quote_char (quote_char ++ v ++ quote_char)%string)).
    + cbn [andb]. rewrite !slength_app. change (String.length quote_char) with 1. cbn [drop append quote_char].
      replace (1 + (String.length v + 1) - 2) with (String.length v) by lia.
      clear. induction v as [|c r IH]; cbn; [reflexivity|now rewrite IH].
    + exists (quote_char ++ v)%string. now rewrite sapp_assoc.
  - intros ->. reflexivity.
Qed.
Print Assumptions C46_quotes_are_taken_off.

(** ** findings *)
(** The cookies of the jar are put in a dictionary that is not used: whatever answers came
    before, a request has the cookies its caller or the configuration gave it and no others;
    the same goes for what the request call back returns. *)
Theorem C46_jar_cookies_never_sent_refuted : forall configured calls outs h,
  NoDup (dkeys configured) -> Forall (fun c => NoDup (dkeys (cl_kwargs c))) calls ->
  http_calls calls (httplib_new configured) = (outs, h) ->
  Forall2 (fun c o => dget "cookies" (sn_args (fst o)) =
    match dget "cookies" (cl_kwargs c) with Some v => Some v | None => dget "cookies" configured end) calls outs.
Proof.
  intros configured calls outs h N NC H. pose proof (C46_each_call_has_its_own_arguments _ _ _ _ N NC H) as F.
  clear H NC. induction F as [|c o l l' (_ & _ & F1) F IH]; constructor; [|exact IH].
  rewrite F1. unfold argument. destruct (dget "cookies" (cl_kwargs c)); [reflexivity|]. destruct (dget "cookies" configured); reflexivity.
Qed.
Print Assumptions C46_jar_cookies_never_sent_refuted.
Theorem C46_request_callback_is_ignored_refuted : forall req ck cb cb' u m kw h,
  http_call req ck cb u m kw h = http_call req ck cb' u m kw h.
Proof. reflexivity. Qed.
Print Assumptions C46_request_callback_is_ignored_refuted.
(** A server cannot take a cookie back with Max-Age=0. *)
Theorem C46_max_age_zero_keeps_cookie_refuted :
  let set := ("sid", mkmorsel "abc" "op.example" "/" "" "") in
  let del := ("sid", mkmorsel "" "op.example" "/" "" "0") in
  exists j, set_cookies [set; del] [] = (Ok tt, j) /\ in_jar j "op.example" "/" "sid" = Some "".
Proof. cbv zeta. eexists. split; reflexivity. Qed.
Print Assumptions C46_max_age_zero_keeps_cookie_refuted.

(** ** the hypotheses are met: two calls, the first answer sets a cookie *)
Definition one_cookie : cookie_oracle := fun t => if t =?s "sid=abc" then Ok [("sid", mkmorsel "abc" "" "" "" "")] else Err OtherError.
Example ex_C46 :
  let c1 := mkcall (fun _ => Ok (Some "sid=abc", VStr "one")) one_cookie None "https://op.example/token" "POST" [("data", VStr "x")] in
  let c2 := mkcall (fun _ => Ok (None, VStr "two")) one_cookie None "https://op.example/userinfo" "GET" [("allow_redirects", VBool true)] in
  http_calls [c1; c2] (client_http (handler_httpc (VBool true) [])) =
  ([(mksent "POST" "https://op.example/token" [("allow_redirects", VBool false); ("verify", VBool true); ("data", VStr "x")], Ok (VStr "one"));
    (mksent "GET" "https://op.example/userinfo" [("allow_redirects", VBool true); ("verify", VBool true)], Ok (VStr "two"))],
   mklib [("allow_redirects", VBool false); ("verify", VBool true)] [("", [("", [("sid", "abc")])])]).
Proof. reflexivity. Qed.
