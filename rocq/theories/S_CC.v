(** Specification for C54: the client credentials grant (RFC 6749 4.4, 6). *)
From Verif Require Import Base Json Msg M_State M_Ctx M_Codec M_ClientAuth M_Service S_ClientAuth S_Service S_Token S_Handler.

(** the token request: posted to the token endpoint, the client authenticated by HTTP
    Basic, its credentials nowhere else *)
Definition cc_wire (id secret ep u m : string) (b : option body) (h : headers) : Prop :=
  u = ep /\ m = "POST" /\ (exists a, dget "Authorization" h = Some a /\ read_basic a = Some (id, secret)) /\
  exists txt, b = Some (BText txt) /\ form_has txt "grant_type" "client_credentials" /\
    form_lacks txt "client_secret" /\ form_lacks txt "client_id".
(** the refresh request: the refresh token is the bearer token *)
Definition cc_refresh_wire (rt ep u m : string) (b : option body) (h : headers) : Prop :=
  u = ep /\ m = "POST" /\ dget "Authorization" h = Some ("Bearer " ++ rt)%string /\
  exists txt, b = Some (BText txt) /\ form_has txt "grant_type" "refresh_token" /\
    form_lacks txt "refresh_token" /\ form_lacks txt "client_secret" /\ form_lacks txt "client_id".
(** nothing is configured for the parameter [p] *)
Definition unconfigured (c : ctx) (conf : dict val) (p : string) : Prop :=
  dget p (match dget "request_args" conf with Some (VDict d) => d | _ => [] end) = None /\
  dget p (register_args c) = None /\ dget p (behaviour c) = None.
(** what a call leaves behind: nothing if it fails or the provider answers with an error;
    otherwise the verified answer, stamped with its time of expiry, is the token response of
    [k], the other items of [k], every other key and the rest of the context are as before *)
Definition stores_answer (vrf : ctx -> msg -> res msg) (now : Z) (k : string) (c : ctx) (r : res response) (c' : ctx) : Prop :=
  match r with
  | Ok (RMsg m) =>
      (c' = c /\ dhas "error" m = true) \/
      ((exists m0 v raw, vrf c m0 = Ok v /\ (raw = v \/ exists z, raw = dset "status_code" z v) /\ stamped now raw m) /\
       (forall cc, get_item (sdb c') cc "token_response" k = msg_new cc (msg_to_dict cTokenResponse m)) /\
       (forall cc t x, t <> "token_response" -> (get_item (sdb c') cc t k = Ok x <-> get_item (sdb c) cc t k = Ok x)) /\
       (forall q, q <> k -> dget q (sdb c') = dget q (sdb c)) /\ c' = set_db (sdb c') c)
  | _ => c' = c
  end.
