(** Property theorem C55: signed and encrypted user info.  Proofs in P_Answer.v,
    specification in S_Answer.v. *)
From Verif Require Import Base BaseP Json Msg M_State S_State M_Ctx M_Codec M_Authz M_ClientAuth M_Service M_Token M_Handler
  S_Service S_Token S_Handler S_Flow S_Claims S_Answer P_Service P_Handler P_Claims P_Answer Ex.

(** C55: whatever the user info endpoint answers, the JWT library is only ever asked to
    unpack with the algorithms in force and for the client, or, for an answer that was
    marked as JSON and is none, by the message class. *)
Theorem C55_algorithms_in_force : forall W cl st tok c,
  only_unpacks (fun j => get_user_info (with_jwt W j) cl st tok) c (fun u => u = userinfo_unpack c \/ u = JwtDeserialize (issuer c)).
Proof.
  intros W cl st tok c j1 j2 A. eapply user_info_agree; [exact A|]. intros i. apply service_request_agree.
  - intros m s. apply sk_userinfo.
  - exact A.
Qed.
Print Assumptions C55_algorithms_in_force.
(** C55: answers marked as JWTs are only unpacked with the algorithms in force *)
Theorem C55_jwt_answers : forall W cl st tok c, (forall u m b h x, e_http W u m b h = Ok x -> jwt_answer x) ->
  only_unpacks (fun j => get_user_info (with_jwt W j) cl st tok) c (fun u => u = userinfo_unpack c).
Proof.
  intros W cl st tok c J j1 j2 A. eapply user_info_agree; [exact A|]. intros i. apply service_request_agree_jwt.
  - intros r. apply J.
  - exact A.
Qed.
Print Assumptions C55_jwt_answers.
(** C55: what is returned and stored for such an answer are the claims that were unpacked
    so, verified, and completed by aggregated claims (C53) *)
Theorem C55_claims_are_the_unpacked_ones : forall W cl st tok c r c', (forall u m b h x, e_http W u m b h = Ok x -> jwt_answer x) ->
  get_user_info W cl st tok c = (Ok r, c') ->
  exists ans d m0 v m, r = RMsg m /\ (exists u b h, e_http W u "GET" b h = Ok ans) /\
    e_jwt W (userinfo_unpack c) (h_text ans) = Ok d /\ msg_new cMessage d = Ok m0 /\ e_vrf W "userinfo" c m0 = Ok v /\
    (proper_claims v -> forall n, (forall s d, left_to v n s -> ~ aggregates (e_agg W) v s d) -> dget n m = dget n v) /\
    (proper_claims v -> forall cc, get_item (sdb c') cc "user_info" st = msg_new cc (msg_to_dict cMessage m)).
Proof.
  intros W cl st tok c r c' J H. destruct (user_info_jwt _ _ _ _ _ _ _ J H) as (ans & d & m0 & v & m & H1 & H2 & H3 & H4 & H5 & H6).
  exists ans, d, m0, v, m. repeat (split; [assumption|]). split; intros P; now apply (aggregated_claims _ _ _ _ _ _ P H6).
Qed.
Print Assumptions C55_claims_are_the_unpacked_ones.
(** C55: an answer that cannot be unpacked with them is refused and nothing is stored *)
Theorem C55_not_unpackable_is_refused : forall W cl st tok c, (forall u m b h x, e_http W u m b h = Ok x -> jwt_answer x) ->
  (forall t, exists e, e_jwt W (userinfo_unpack c) t = Err e) -> exists e, get_user_info W cl st tok c = (Err e, c).
Proof. exact user_info_jwt_fails. Qed.
Print Assumptions C55_not_unpackable_is_refused.

(** ** examples: a library that unpacks with ES256 only, and a provider that offers more *)
Definition as_http : http_client := fun u m b h => Ok (mkresp 200 (Some "application/jwt; charset=utf-8") "h.p.s").
Definition as_jwt : jwt_oracle := fun u t =>
  match u with
  | JwtUnpack (Some (VStr "ES256")) _ _ "client1" => Ok [("sub", VStr "u1"); ("email", VStr "u1@example.org")]
  | _ => Err OtherError
  end.
Definition as_env : env := with_jwt (with_http ex_env as_http) as_jwt.
Definition as_ctx (c : ctx) : ctx := set_behaviour (dset "userinfo_signed_response_alg" (VStr "ES256") (behaviour c)) c.
Example C55_ex : (forall u m b h x, e_http as_env u m b h = Ok x -> jwt_answer x) /\
  userinfo_unpack (as_ctx ex_c3) = JwtUnpack (Some (VStr "ES256")) None None "client1" /\
  (exists m, fst (get_user_info as_env ex_client ex_state "AT1" (as_ctx ex_c3)) = Ok (RMsg m) /\ dget "email" m = Some (VStr "u1@example.org")) /\
  (exists e, fst (get_user_info as_env ex_client ex_state "AT1" ex_c3) = Err e).
Proof.
  split.
  { intros u m b h x H. injection H as <-. split; [cbn; lia|]. exists "; charset=utf-8". reflexivity. }
  split; [reflexivity|]. split.
  - exists [("sub", VStr "u1"); ("email", VStr "u1@example.org")]. split; [vm_compute; reflexivity|reflexivity].
  - exists OtherError. vm_compute. reflexivity.
Qed.
(** ** C55, deviation: a JWT marked as JSON is unpacked without any restriction of the
    algorithms, although the client has registered one *)
Definition dg_http : http_client := fun u m b h => Ok (mkresp 200 (Some "application/json") "h.p.s").
Definition dg_jwt : jwt_oracle := fun u t => match u with JwtDeserialize _ => Ok [("sub", VStr "u1"); ("email", VStr "e@evil.example")] | _ => Err OtherError end.
Theorem C55_marked_as_json_refuted : exists W cl st tok c m,
  dget "userinfo_signed_response_alg" (behaviour c) = Some (VStr "ES256") /\
  (forall u a e i t, u = JwtUnpack (Some (VStr "ES256")) a e i -> exists x, e_jwt W u t = Err x) /\
  fst (get_user_info W cl st tok c) = Ok (RMsg m) /\ dget "email" m = Some (VStr "e@evil.example").
Proof.
  exists (with_jwt (with_http ex_env dg_http) dg_jwt), ex_client, ex_state, "AT1", (as_ctx ex_c3), [("sub", VStr "u1"); ("email", VStr "e@evil.example")].
  split; [vm_compute; reflexivity|]. split; [intros u a e i t ->; cbn; eauto|]. split; [vm_compute; reflexivity|reflexivity].
Qed.
Print Assumptions C55_marked_as_json_refuted.
