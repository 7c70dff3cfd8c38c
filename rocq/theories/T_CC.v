(** C54: the client credentials grant. *)
From Verif Require Import Base BaseP Json JsonP Msg M_State S_State P_State M_Ctx M_Codec M_Authz M_ClientAuth
  M_Service M_Token M_Handler M_CC S_ClientAuth S_Service S_Token S_Handler S_CC P_Ctx P_Service P_Token P_Token2 P_CC Ex.

(** every token request the call can make is the grant's: client_credentials, posted to the
    token endpoint, authenticated by HTTP Basic with the client's own credentials, which
    appear nowhere else *)
Theorem C54_token_request : forall E jwt vrf now conf args st c ep,
  NoDup (dkeys args) -> dget "grant_type" args = None -> dget "client_secret" args = None ->
  unconfigured c conf "grant_type" -> dget "token_endpoint" (provider_info c) = Some (VStr ep) ->
  only_sends (fun http => cc_tokens E http jwt vrf now conf args st) c (cc_wire (client_id c) (client_secret c) ep).
Proof. exact cc_sends. Qed.
Print Assumptions C54_token_request.

(** what the calls store *)
Theorem C54_answer_stored : forall E http jwt vrf now conf args k c r c',
  cc_tokens E http jwt vrf now conf args (Some k) c = (r, c') -> stores_answer vrf now k c r c'.
Proof.
  intros E http jwt vrf now conf args k c r c' H.
  exact (cc_stores _ _ _ (cc_token_service vrf now conf) vrf now _ _ _ _ _ eq_refl eq_refl eq_refl (pure_cc vrf now conf E args (state_kw (Some k))) H).
Qed.
Print Assumptions C54_answer_stored.
Theorem C54_refresh_answer_stored : forall E http jwt vrf now conf args k c r c',
  cc_refresh E http jwt vrf now conf args (Some k) c = (r, c') -> stores_answer vrf now k c r c'.
Proof.
  intros E http jwt vrf now conf args k c r c' H.
  exact (cc_stores _ _ _ (cc_refresh_service vrf now conf) vrf now _ _ _ _ _ eq_refl eq_refl eq_refl (pure_cc_refresh vrf now conf E args (state_kw (Some k))) H).
Qed.
Print Assumptions C54_refresh_answer_stored.

(** a refresh presents the stored refresh token, as the bearer token and nowhere else, and
    no client credentials *)
Theorem C54_refresh_request : forall E jwt vrf now conf args k c ep rt it, NoDup (dkeys args) -> dget "pre_construct" conf = None ->
  dget "grant_type" args = None -> dget "refresh_token" args = None -> unconfigured c conf "grant_type" ->
  (forall x, get_item (sdb c) cTokenResponse "refresh_token_response" k <> Ok x) ->
  get_item (sdb c) cTokenResponse "token_response" k = Ok it -> dget "refresh_token" it = Some (VStr rt) ->
  dget (verified "refresh_token") it = None -> rt <> "" -> dget "token_endpoint" (provider_info c) = Some (VStr ep) ->
  only_sends (fun http => cc_refresh E http jwt vrf now conf args (Some k)) c (cc_refresh_wire rt ep).
Proof. exact cc_refresh_sends. Qed.
Print Assumptions C54_refresh_request.

(** both together: the refresh token of the answer to a token request is what a refresh of
    the same key sends *)
Theorem C54_refresh_follows_token : forall E http jwt E' jwt' vrf now vrf' now' conf conf' args args' k c m c' ep rt,
  NoDup (dkeys args') -> dget "pre_construct" conf' = None -> dget "grant_type" args' = None -> dget "refresh_token" args' = None ->
  unconfigured c conf' "grant_type" -> dget "token_endpoint" (provider_info c) = Some (VStr ep) ->
  (forall x, get_item (sdb c) cTokenResponse "refresh_token_response" k <> Ok x) ->
  cc_tokens E http jwt vrf now conf args (Some k) c = (Ok (RMsg m), c') -> dhas "error" m = false ->
  NoDup (dkeys m) -> dget "refresh_token" m = Some (VStr rt) -> rt <> "" -> dget (verified "refresh_token") m = None ->
  only_sends (fun http => cc_refresh E' http jwt' vrf' now' conf' args' (Some k)) c' (cc_refresh_wire rt ep).
Proof. exact cc_then_refresh. Qed.
Print Assumptions C54_refresh_follows_token.

(** ** examples *)
Definition cc_answer : dict val :=
  [("access_token", VStr "AT1"); ("token_type", VStr "Bearer"); ("expires_in", VInt 3600); ("refresh_token", VStr "RT1")].
Definition cc_http : http_client := fun u m b h => Ok (mkresp 200 (Some "application/json") (json_dumps (VDict cc_answer))).
Definition cc_run (st : option string) : res response * ctx := cc_tokens ex_authn cc_http (fun _ _ => Err OtherError) (fun _ m => Ok m) 1000 [] [("scope", strs ["api"])] st ex_ctx.
Example C54_token_ex : exists m, fst (cc_run (Some "svc")) = Ok (RMsg m) /\ dhas "error" m = false /\ NoDup (dkeys m) /\
  dget "refresh_token" m = Some (VStr "RT1") /\ dget (verified "refresh_token") m = None /\ unconfigured ex_ctx [] "grant_type".
Proof.
  exists (cc_answer ++ [("__expires_at", VInt 4600)]). split; [vm_compute; reflexivity|].
  split; [reflexivity|]. split; [|now repeat split].
  cbn. repeat constructor; cbn; intuition discriminate.
Qed.
(** the requests as the provider sees them *)
Definition cc_spy : http_client := fun u m b h =>
  match b, dget "Authorization" h with
  | Some (BText t), Some a => Err (KeyError (u ++ " " ++ t ++ " " ++ a))
  | _, _ => Err OtherError
  end.
Example C54_wire_ex :
  fst (cc_tokens ex_authn cc_spy (fun _ _ => Err OtherError) (fun _ m => Ok m) 1000 [] [("scope", strs ["api"])] (Some "svc") ex_ctx) =
    Err (KeyError "https://op.example/token grant_type=client_credentials&scope=api Basic Y2xpZW50MTpzM2NyZXQ=") /\
  fst (cc_refresh ex_authn cc_spy (fun _ _ => Err OtherError) (fun _ m => Ok m) 1000 [] [] (Some "svc") (snd (cc_run (Some "svc")))) =
    Err (KeyError "https://op.example/token grant_type=refresh_token&scope=openid+email Bearer RT1").
Proof. vm_compute. split; reflexivity. Qed.

(** ** C54, deviation: without a state the two calls use different keys.  The tokens are
    stored under the empty key, the refresh looks under 'cc': it cannot be made, although
    the refresh token is there. *)
Theorem C54_default_key_refuted : exists E http jwt vrf now c m c',
  cc_tokens E http jwt vrf now [] [] None c = (Ok (RMsg m), c') /\ dget "refresh_token" m = Some (VStr "RT1") /\
  (exists it, get_item (sdb c') cTokenResponse "token_response" "" = Ok it /\ dget "refresh_token" it = Some (VStr "RT1")) /\
  (exists e, get_item (sdb c') cTokenResponse "token_response" "cc" = Err e) /\
  forall http', exists e, fst (cc_refresh E http' jwt vrf now [] [] None c') = Err e.
Proof.
  exists ex_authn, cc_http, (fun _ _ => Err OtherError), (fun _ m => Ok m), 1000%Z, ex_ctx, (cc_answer ++ [("__expires_at", VInt 4600)]). eexists.
  split; [vm_compute; reflexivity|]. split; [reflexivity|].
  split; [eexists; vm_compute; split; reflexivity|]. split; [eexists; vm_compute; reflexivity|].
  intros http'. eexists. vm_compute. reflexivity.
Qed.
Print Assumptions C54_default_key_refuted.
