(** Specification for C55: how signed and encrypted user info is unpacked. *)
From Verif Require Import Base Json Msg M_State M_Ctx M_Service M_Handler.

(** the algorithms in force: the client's own setting, else what the provider publishes *)
Definition in_force (c : ctx) (own published : string) : option val :=
  match dget own (behaviour c) with Some v => Some v | None => dget published (provider_info c) end.
(** the one way user info is to be unpacked in the context [c]: with the algorithms in
    force, for the client as recipient *)
Definition userinfo_unpack (c : ctx) : jwt_use :=
  JwtUnpack (in_force c "userinfo_signed_response_alg" "userinfo_signing_alg_values_supported")
            (in_force c "userinfo_encrypted_response_alg" "userinfo_encryption_alg_values_supported")
            (in_force c "userinfo_encrypted_response_enc" "userinfo_encryption_enc_values_supported")
            (client_id c).
(** every unpacking [run] makes from [c] satisfies [P]: what [run] does is the same for
    any two libraries that agree on the uses satisfying [P] *)
Definition only_unpacks {A} (run : jwt_oracle -> M A) (c : ctx) (P : jwt_use -> Prop) : Prop :=
  forall j1 j2, (forall u t, P u -> j1 u t = j2 u t) -> run j1 c = run j2 c.
(** the same environment with another JWT library *)
Definition with_jwt (W : env) (j : jwt_oracle) : env :=
  mkenv (e_now W) (e_nonce W) (e_state W) (e_state2 W) (e_nonce2 W) (e_lstate W) (e_http W) j (e_vrf W) (e_agg W)
    (e_reqobj W) (e_authn W) (e_rand W) (e_hash W).
(** a successful answer marked as a JWT *)
Definition jwt_answer (r : http_resp) : Prop :=
  (200 <= h_status r <= 206)%Z /\ exists t, h_ctype r = Some ("application/jwt" ++ t)%string.
