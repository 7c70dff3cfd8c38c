(** A concrete world, used to show that the hypotheses of the theorems are met. *)
From Verif Require Import Base BaseP Json Msg M_State M_Ctx M_Codec M_Authz M_ClientAuth M_Service M_Token M_Handler.

Definition ex_state := "abcdefghijklmnopqrstuvwxyz012345".
Definition ex_nonce := "NnNnNnNnNnNnNnNnNnNnNnNn".
Definition ex_provider : dict val :=
  [("issuer", VStr "https://op.example"); ("authorization_endpoint", VStr "https://op.example/authz");
   ("token_endpoint", VStr "https://op.example/token"); ("userinfo_endpoint", VStr "https://op.example/userinfo");
   ("end_session_endpoint", VStr "https://op.example/logout")].
Definition ex_ctx : ctx :=
  mkctx "https://op.example" "client1" "s3cret" "https://rp.example" "" (VDict []) ["https://rp.example/cb"] []
    [("response_types", strs ["code"]); ("scope", strs ["openid"; "email"])] ex_provider [] [] [] [] []
    [("pkce", VDict [("code_challenge_length", VInt 64); ("code_challenge_method", VStr "S256")])] [].
Definition ex_idt : dict val :=
  [("iss", VStr "https://op.example"); ("sub", VStr "u1"); ("nonce", VStr ex_nonce); ("exp", VInt 5000)].
(** verification: the ID Token is replaced by the claims above *)
Definition ex_vrf (n : string) (c : ctx) (m : msg) : res msg :=
  Ok (if dhas "id_token" m then dset (verified "id_token") (VDict ex_idt) m else m).
Definition ex_answer : dict val :=
  [("access_token", VStr "AT1"); ("token_type", VStr "Bearer"); ("expires_in", VInt 3600); ("refresh_token", VStr "RT1");
   ("id_token", VStr "eyJ.x.y")].
Definition ex_http : http_client := fun u m b h =>
  Ok (mkresp 200 (Some "application/json")
        (if u =?s "https://op.example/token" then json_dumps (VDict ex_answer)
         else json_dumps (VDict [("sub", VStr "u1"); ("email", VStr "u1@example.org")]))).
Definition ex_authn : authn_env :=
  Build_authn_env (fun _ _ _ => "sig") [] [] "jti" 1000.
Definition ex_env : env :=
  mkenv 1000 ex_nonce ex_state "x2" "n2" "LsLsLsLsLsLsLsLsLsLsLsLsLsLsLsLs" ex_http (fun _ _ => Err OtherError) ex_vrf
    (fun _ => Ok None) (fun _ _ _ _ => Ok "reqobj") ex_authn (fun n => 7 * n) (fun m v => (m ++ "digest")%string).
Definition ex_client : client :=
  mkclient ex_ctx ["authorization"; "accesstoken"; "refresh_token"; "userinfo"; "end_session"] [] true.
(** after the authorization request *)
Definition ex_c1 : ctx := snd (init_authorization ex_env ex_client [] None ex_ctx).
Definition ex_resp : dict val := [("code", VStr "c0de"); ("state", VStr ex_state)].
(** after the authorization response *)
Definition ex_c2 : ctx := snd (finalize_auth (ex_vrf "authorization") 1000 "https://op.example" ex_resp ex_c1).
(** after the token response *)
Definition ex_c3 : ctx := snd (get_tokens ex_env ex_client ex_state ex_c2).

(** evaluation of examples: the answer is checked by a boolean *)
Lemma ok_if {A} (r : res A) : (match r with Ok _ => true | Err _ => false end) = true -> exists x, r = Ok x.
Proof. destruct r; [eauto|discriminate]. Qed.
Lemma ok_with {A} (r : res A) (f : A -> bool) (P : A -> Prop) : (forall x, f x = true -> P x) ->
  (match r with Ok x => f x | Err _ => false end) = true -> exists x, r = Ok x /\ P x.
Proof. destruct r; [eauto|discriminate]. Qed.
Lemma get_if p v (m : dict val) : (match dget p m with Some w => val_eqb w v | None => false end) = true -> dget p m = Some v.
Proof. destruct (dget p m); [|discriminate]. intros H. f_equal. now apply val_eqb_eq. Qed.
