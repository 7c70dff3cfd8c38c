(** Property theorems C07, C11 (front channel), C39. *)
From Verif Require Import Base BaseP Json Msg M_State S_State M_Ctx M_Authz P_Authz.

(** C07.  Whatever verification does ([vrf] is arbitrary): a response is stored only
    for a session of this client whose recorded issuer is the given one; nothing but
    that session's auth_response item changes; errors change nothing. *)
Theorem C07_response_accepted_only_for_known_session_of_issuer : forall vrf now iss response c r c',
  finalize_auth vrf now iss response c = (r, c') ->
  match r with
  | Err _ => c' = c
  | Ok m =>
      (is_error_message m = true /\ c' = c) \/
      (is_error_message m = false /\ exists s,
         dget "state" m = Some (VStr s) /\
         get_iss (sdb c) s = Ok (VStr iss) /\
         c' = set_db (sdb c') c /\
         (forall cc, get_item (sdb c') cc "auth_response" s = msg_new cc (msg_to_dict cAuthzResponse m)) /\
         (forall cc t, t <> "auth_response" -> get_item (sdb c') cc t s = get_item (sdb c) cc t s) /\
         get_iss (sdb c') s = Ok (VStr iss) /\
         (forall k, k <> s -> dget k (sdb c') = dget k (sdb c)))
  end.
Proof. exact finalize_auth_spec. Qed.
Print Assumptions C07_response_accepted_only_for_known_session_of_issuer.

Theorem C07_unknown_state_and_wrong_issuer_raise : forall vrf now iss response c r,
  finalize_auth vrf now iss response c = (r, c) ->
  forall resp0 resp, msg_new cAuthzResponse response = Ok resp0 ->
  parse_deserialised vrf oidc_authz_post_parse resp0 "" c = (Ok resp, c) ->
  is_error_message resp = false ->
  (forall s, dget "state" resp = Some (VStr s) ->
     (forall e, get_iss (sdb c) s = Err (KeyError e) -> r = Err (KeyError "Unknown state value")) /\
     (forall i, get_iss (sdb c) s = Ok i -> i <> VStr iss -> r = Err ValueError)) /\
  (dget "state" resp = None -> r = Err (KeyError "Unknown state value")).
Proof. exact finalize_auth_unknown. Qed.
Print Assumptions C07_unknown_state_and_wrong_issuer_raise.

(** C11, front channel: an accepted authorization response that carries a verified ID
    Token has the nonce of the authorization request of its own session. *)
Theorem C11_front_channel_id_token_nonce : forall vrf now iss response c m c' idt,
  finalize_auth vrf now iss response c = (Ok m, c') -> is_error_message m = false ->
  dget (verified "id_token") m = Some idt -> truthy idt = true ->
  exists s req, dget "state" m = Some (VStr s) /\
    get_item (sdb c) cOAuth2AuthzRequest "auth_request" s = Ok req /\
    (forall n, dget "nonce" req = Some n -> truthy n = true ->
       exists claims, idt = VDict claims /\ dget "nonce" claims = Some n).
Proof. exact finalize_auth_nonce. Qed.
Print Assumptions C11_front_channel_id_token_nonce.

(** C39 *)
Theorem C39_caller_redirect_uri_wins : forall c args rt u,
  dget "redirect_uri" args = Some u -> pick_redirect_uri c (Some args) rt = Ok u.
Proof. exact pick_caller. Qed.
Print Assumptions C39_caller_redirect_uri_wins.
Theorem C39_first_registered_redirect_uri_is_next : forall c args rt u us,
  dget "redirect_uri" args = None -> redirect_uris c = u :: us ->
  pick_redirect_uri c (Some args) rt = Ok (VStr u).
Proof. exact pick_registered. Qed.
Print Assumptions C39_first_registered_redirect_uri_is_next.
Theorem C39_callback_by_response_mode_and_type : forall c args rt,
  dget "redirect_uri" args = None -> redirect_uris c = [] -> callback c <> [] -> truthy rt = true ->
  pick_redirect_uri c (Some args) (Some rt) =
    dict_get (if wants_form_post args rt then "form_post" else if wants_code rt then "code" else "implicit")
             (callback c).
Proof. exact pick_callback. Qed.
Print Assumptions C39_callback_by_response_mode_and_type.
Theorem C39_nothing_to_pick_raises : forall c args rt,
  dget "redirect_uri" args = None -> redirect_uris c = [] -> callback c = [] ->
  pick_redirect_uri c (Some args) rt = Err MissingRequiredAttribute.
Proof. exact pick_none. Qed.
Print Assumptions C39_nothing_to_pick_raises.
Theorem C39_never_invents_a_uri : forall c args rt u, pick_redirect_uri c args rt = Ok u ->
  (exists a, args = Some a /\ dget "redirect_uri" a = Some u) \/
  (exists s us, redirect_uris c = s :: us /\ u = VStr s) \/
  (redirect_uris c = [] /\ exists k, In k ["form_post"; "code"; "implicit"] /\ dget k (callback c) = Some u).
Proof. exact pick_sound. Qed.
Print Assumptions C39_never_invents_a_uri.

(** ** non-vacuity *)
Definition sA := "AAAAAAAAAAAAAAAAAAAAAAAAAAAAAAAA".
Definition authz_db : db :=
  snd (crun [] [Create sA "https://op" "";
    Store cAuthzRequest [("state", VStr sA); ("nonce", VStr "N"); ("scope", strs ["openid"]);
                         ("redirect_uri", VStr "https://rp/cb")] "auth_request" sA]).
Definition authz_ctx : ctx := set_db authz_db (set_issuer "https://op" empty_ctx).
(** a verification that adds the verified ID Token with nonce n *)
Definition vrf_nonce (n : string) (_ : ctx) (m : msg) : res msg :=
  Ok (dset (verified "id_token") (VDict [("sub", VStr "alice"); ("nonce", VStr n)]) m).
Definition authz_resp : dict val :=
  [("state", VStr sA); ("code", VStr "c1"); ("id_token", VStr "j.w.t"); ("expires_in", VInt 60)].
Example finalize_auth_accepts :
  match fst (finalize_auth (vrf_nonce "N") 1000 "https://op" authz_resp authz_ctx) with
  | Ok m => is_error_message m = false /\ dget "__expires_at" m = Some (VInt 1060)
  | Err _ => False
  end.
Proof. vm_compute. auto. Qed.
Example finalize_auth_rejects :
  finalize_auth (vrf_nonce "X") 1000 "https://op" authz_resp authz_ctx = (Err ValueError, authz_ctx) /\
  finalize_auth (vrf_nonce "N") 1000 "https://evil" authz_resp authz_ctx = (Err ValueError, authz_ctx) /\
  finalize_auth (vrf_nonce "N") 1000 "https://op" [("state", VStr "zzz"); ("code", VStr "c")] authz_ctx
    = (Err (KeyError "zzz"), authz_ctx).
Proof. vm_compute. auto. Qed.
Example pick_examples :
  pick_redirect_uri (set_callback [("code", VStr "https://rp/c"); ("implicit", VStr "https://rp/i")] empty_ctx)
    (Some []) (Some (VStr "code")) = Ok (VStr "https://rp/c").
Proof. vm_compute. reflexivity. Qed.
