(** Property theorems C01-C06: the session store (state_interface.py).
    Statements only; proofs are in P_State.v, the specification in S_State.v. *)
From Verif Require Import Base Json JsonP Msg M_State S_State P_State.

(** Session keys as generated by the library, and caller-chosen keys without a
    reserved shape, form families of keys to which the theorems apply. *)
Theorem C03_generated_keys_are_a_family : key_family rnd32.
Proof. exact rnd32_family. Qed.
Print Assumptions C03_generated_keys_are_a_family.

Theorem C05_plain_keys_are_a_family : key_family (fun k => plain_key k = true).
Proof. exact plain_family. Qed.
Print Assumptions C05_plain_keys_are_a_family.

(** C01: every history of create / store / bind / remove, with any issuers,
    items and values, reads back like the abstract map of S_State.v. *)
Theorem C01_items_read_back_last_write_wins : forall K ops,
  key_family K -> Forall (op_ok K) ops ->
  let d := snd (crun [] ops) in
  (forall k c t, K k -> t <> "iss" ->
     match latest_item (rev ops) k t with
     | Some i => get_item d c t k = msg_new c i
     | None => exists e, get_item d c t k = Err (KeyError e)
     end) /\
  (forall k, K k ->
     match latest_iss (rev ops) k with
     | Some i => get_iss d k = Ok (VStr i)
     | None => exists e, get_iss d k = Err (KeyError e)
     end).
Proof. exact store_observations. Qed.
Print Assumptions C01_items_read_back_last_write_wins.

Theorem C01_operation_results_refine_abstract_machine : forall K ops,
  key_family K -> Forall (op_ok K) ops ->
  Forall2 (fun o rx => out_agrees o (fst rx) (snd rx)) ops
          (combine (fst (crun [] ops)) (fst (arun ainit ops))).
Proof. exact store_refines. Qed.
Print Assumptions C01_operation_results_refine_abstract_machine.

(** the JSON layer under the store is lossless *)
Theorem C01_json_roundtrip : forall v, json_loads (json_dumps v) = Some v.
Proof. exact json_roundtrip. Qed.
Print Assumptions C01_json_roundtrip.

(** C02: whatever the database contains, an operation on session k leaves every
    other session alone (and a bind leaves all sessions alone). *)
Theorem C02_sessions_do_not_interfere : forall K d o k k',
  key_family K -> op_ok K o -> K k' ->
  k = (match o with Create r _ key => created_key r key | Store _ _ _ k => k
                  | Bind _ _ k => k | Remove k => k end) ->
  (k' <> k \/ exists x v, o = Bind x v k) ->
  get_state (snd (cstep d o)) k' = get_state d k'.
Proof. exact sessions_isolated. Qed.
Print Assumptions C02_sessions_do_not_interfere.

Theorem C02_index_entries_do_not_interfere : forall K d o x v,
  key_family K -> op_ok K o -> In x kinds ->
  is_remove o = false -> (forall k, o <> Bind x v k) ->
  get_state_by_x (snd (cstep d o)) v x = get_state_by_x d v x.
Proof. exact index_isolated. Qed.
Print Assumptions C02_index_entries_do_not_interfere.

(** C03: lookups return the session last bound to exactly that kind and value. *)
Theorem C03_index_lookup_is_last_binding : forall K ops x v,
  key_family K -> Forall (op_ok K) ops -> In x kinds ->
  forallb (fun o => negb (is_remove o)) ops = true ->
  get_state_by_x (snd (crun [] ops)) v x =
  match latest_bind (rev ops) x v with Some k => Ok k | None => Err (KeyError v) end.
Proof. exact index_lookup. Qed.
Print Assumptions C03_index_lookup_is_last_binding.

(** C04: clean removal, for a session that has at least one index value,
    whose values were bound once per kind and to no other session, and that was
    not removed before. *)
Theorem C04_remove_state_is_clean : forall K ops k,
  key_family K -> Forall (op_ok K) ops -> K k ->
  exclusive k ops -> (exists x v, In (Bind x v k) ops) ->
  (exists m, get_state (snd (crun [] ops)) k = Ok m) ->
  let d := snd (crun [] ops) in
  let d' := snd (remove_state k d) in
  fst (remove_state k d) = Ok tt /\
  get_state d' k = Err (KeyError k) /\
  (forall x v, In x kinds -> get_state_by_x d' v x <> Ok k) /\
  (forall k', K k' -> k' <> k -> get_state d' k' = get_state d k') /\
  (forall x v s, In x kinds -> s <> k -> get_state_by_x d v x = Ok s -> get_state_by_x d' v x = Ok s).
Proof. exact remove_clean. Qed.
Print Assumptions C04_remove_state_is_clean.

(** C04 refuted in general: (1) a session without index values cannot be removed
    without TypeError (json.loads(None)); *)
Theorem C04_remove_without_index_values_raises_refuted :
  exists ops k, Forall (op_ok rnd32) ops /\
    (exists m, get_state (snd (crun [] ops)) k = Ok m) /\
    fst (remove_state k (snd (crun [] ops))) = Err TypeError.
Proof.
  exists [Create "AAAAAAAAAAAAAAAAAAAAAAAAAAAAAAAA" "https://op" ""], "AAAAAAAAAAAAAAAAAAAAAAAAAAAAAAAA".
  split; [|split; [eexists|]]; [|vm_compute; reflexivity..].
  ops_ok.
Qed.
Print Assumptions C04_remove_without_index_values_raises_refuted.

(** (2) a nonce that was replaced by a second nonce still resolves to the removed
    session; *)
Theorem C04_dangling_nonce_after_remove_refuted :
  exists ops k, Forall (op_ok rnd32) ops /\
    fst (remove_state k (snd (crun [] ops))) = Ok tt /\
    get_state_by_nonce (snd (remove_state k (snd (crun [] ops)))) "n1" = Ok k.
Proof.
  exists [Create "AAAAAAAAAAAAAAAAAAAAAAAAAAAAAAAA" "https://op" "";
          Bind "nonce" "n1" "AAAAAAAAAAAAAAAAAAAAAAAAAAAAAAAA";
          Bind "nonce" "n2" "AAAAAAAAAAAAAAAAAAAAAAAAAAAAAAAA"],
         "AAAAAAAAAAAAAAAAAAAAAAAAAAAAAAAA".
  split; [|split; vm_compute; reflexivity].
  ops_ok.
Qed.
Print Assumptions C04_dangling_nonce_after_remove_refuted.

(** (3) removing one of two sessions of the same subject makes the other one
    unfindable by subject, and removing that one then raises KeyError although
    its session entry has already been deleted. *)
Theorem C04_shared_subject_refuted :
  exists ops k1 k2, Forall (op_ok rnd32) ops /\ k1 <> k2 /\
    get_state_by_sub (snd (crun [] ops)) "alice" = Ok k2 /\
    let d1 := snd (remove_state k1 (snd (crun [] ops))) in
    get_state_by_sub d1 "alice" = Err (KeyError "alice") /\
    (exists e, fst (remove_state k2 d1) = Err (KeyError e)) /\
    get_state (snd (remove_state k2 d1)) k2 = Err (KeyError k2).
Proof.
  exists [Create "AAAAAAAAAAAAAAAAAAAAAAAAAAAAAAAA" "https://op" "";
          Bind "subject id" "alice" "AAAAAAAAAAAAAAAAAAAAAAAAAAAAAAAA";
          Create "BBBBBBBBBBBBBBBBBBBBBBBBBBBBBBBB" "https://op" "";
          Bind "subject id" "alice" "BBBBBBBBBBBBBBBBBBBBBBBBBBBBBBBB"],
         "AAAAAAAAAAAAAAAAAAAAAAAAAAAAAAAA", "BBBBBBBBBBBBBBBBBBBBBBBBBBBBBBBB".
  split; [ops_ok|]. split; [discriminate|].
  split; [vm_compute; reflexivity|]. cbv zeta.
  split; [vm_compute; reflexivity|]. split; [eexists|]; vm_compute; reflexivity.
Qed.
Print Assumptions C04_shared_subject_refuted.

(** C05 refuted: create_state accepts the caller key '==alice==', which is the
    entry a later login of subject alice overwrites: the session is destroyed. *)
Theorem C05_caller_key_shadows_index_refuted :
  exists key, fst (create_state "" "https://op" key []) = Ok key /\
    let d := snd (create_state "" "https://op" key []) in
    get_iss d key = Ok (VStr "https://op") /\
    get_state (snd (store_sub2state "alice" "AAAAAAAAAAAAAAAAAAAAAAAAAAAAAAAA" d)) key = Err JSONDecodeError.
Proof. exists "==alice==". vm_compute. auto. Qed.
Print Assumptions C05_caller_key_shadows_index_refuted.

(** C05: keys of the nonce shape are always rejected without effect *)
Theorem C05_nonce_shaped_key_rejected : forall rnd iss v d,
  create_state rnd iss (fmt "__" v) d = (Err ValueError, d).
Proof. exact nonce_key_rejected. Qed.
Print Assumptions C05_nonce_shaped_key_rejected.

(** C06 *)
Theorem C06_single_item_precedence : forall d args c t k ps orig it r,
  get_item d c t k = Ok it -> extend_request_args d args c t k ps orig = Ok r ->
  forall q, dget q r = if mem_str q ps
                       then match offer orig it q with Some v => Some v | None => dget q args end
                       else dget q args.
Proof. exact extend_get. Qed.
Print Assumptions C06_single_item_precedence.

Theorem C06_missing_item_leaves_arguments : forall d args c t k ps orig e,
  get_item d c t k = Err (KeyError e) -> extend_request_args d args c t k ps orig = Ok args.
Proof. exact extend_missing. Qed.
Print Assumptions C06_missing_item_leaves_arguments.

Theorem C06_last_item_type_wins : forall d args k ps typs orig st r,
  get_state d k = Ok st -> multiple_extend_request_args d args k ps typs orig = Ok r ->
  forall q, dget q r = if mem_str q ps
                       then match last_offer orig (present st typs) q with
                            | Some v => Some v | None => dget q args end
                       else dget q args.
Proof. exact mult_extend_spec. Qed.
Print Assumptions C06_last_item_type_wins.

(** ** The hypotheses are met by non-trivial cases *)
Definition kA := "AAAAAAAAAAAAAAAAAAAAAAAAAAAAAAAA".
Definition kB := "BBBBBBBBBBBBBBBBBBBBBBBBBBBBBBBB".
Definition demo : list op :=
  [Create kA "https://op/1" ""; Bind "nonce" "n1" kA;
   Store cMessage [("state", VStr kA); ("scope", strs ["openid"; "email"])] "auth_request" kA;
   Create kB "https://op/2" ""; Bind "nonce" "n2" kB;
   Store cMessage [("code", VStr "c0de")] "auth_response" kA;
   Store cMessage [("code_verifier", VStr "ver")] "pkce" kB;
   Bind "subject id" "alice" kB; Remove kB].
Example demo_ok : Forall (op_ok rnd32) demo.
Proof. ops_ok. Qed.
Example demo_reads :
  get_item (snd (crun [] demo)) cMessage "auth_request" kA =
    Ok [("state", VStr kA); ("scope", strs ["openid"; "email"])] /\
  get_iss (snd (crun [] demo)) kA = Ok (VStr "https://op/1") /\
  get_state_by_nonce (snd (crun [] demo)) "n1" = Ok kA /\
  get_state (snd (crun [] demo)) kB = Err (KeyError kB).
Proof. vm_compute. auto. Qed.
Example demo_exclusive : exclusive kB (removelast demo) /\
  (exists x v, In (Bind x v kB) (removelast demo)) /\
  (exists m, get_state (snd (crun [] (removelast demo))) kB = Ok m).
Proof.
  split; [|split].
  - split; [|split].
    + simpl. intros x v v'. intuition (try discriminate); congruence.
    + simpl. intros x v k'. intuition (try discriminate); congruence.
    + simpl. intuition discriminate.
  - exists "nonce", "n2". simpl. auto 10.
  - eexists. vm_compute. reflexivity.
Qed.
Example demo_extend :
  multiple_extend_request_args (snd (crun [] demo)) [("scope", VStr "x")] kA ["scope"; "code"; "nonce"]
     ["auth_request"; "token_response"; "auth_response"] false
  = Ok [("scope", strs ["openid"; "email"]); ("code", VStr "c0de")].
Proof. vm_compute. reflexivity. Qed.
