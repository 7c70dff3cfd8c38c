(** Specification vocabulary for the add-ons (C36, C37). *)
From Verif Require Import Base Json Msg M_State M_Ctx M_Codec M_Service M_AddOn.

(** ** DPoP: the client's key and its algorithm, once there is one *)
Definition client_key (c : ctx) : option (string * val) :=
  match dget "dpop" (add_on c) with
  | Some (VDict d) => match dget "key" d, dget "alg" d with Some (VStr k), Some a => Some (k, a) | _, _ => None end
  | _ => None
  end.
(** the algorithms the client may use and those the provider supports *)
Definition allowed_algs (c : ctx) : list val :=
  match dget "dpop" (add_on c) with
  | Some (VDict d) => match dget "sign_algs" d with Some (VList l) => l | _ => [] end
  | _ => []
  end.
Definition supported_algs (c : ctx) : list val :=
  match dget "dpop_signing_alg_values_supported" (provider_info c) with Some (VList l) => l | _ => [] end.
(** [a] is the first allowed algorithm that is supported *)
Definition first_common (c : ctx) (a : val) : Prop :=
  exists l r, allowed_algs c = l ++ a :: r /\ In a (supported_algs c) /\ (forall x, In x l -> ~ In x (supported_algs c)).
(** one step of a client's life: a proof is made, or anything else happens that is not the
    business of the DPoP settings *)
Inductive dpop_step : ctx -> ctx -> Prop :=
| ds_proof E h req ep meth kw c r c' : dpop_header E h req ep meth kw c = (r, c') -> dpop_step c c'
| ds_other c c' : add_on c' = add_on c -> dpop_step c c'.
Inductive dpop_life : ctx -> ctx -> Prop :=
| dl_here c : dpop_life c c
| dl_step c1 c2 c3 : dpop_step c1 c2 -> dpop_life c2 c3 -> dpop_life c1 c3.
(** the proof for a request: signed with [k], for this method and URL *)
Definition is_proof (E : dpop_env) (k : string) (alg : val) (meth url jws : string) : Prop :=
  dp_sign E k [("typ", VStr "dpop+jwt"); ("alg", alg); ("jwk", dp_jwk E k)]
    [("jti", VStr (dp_jti E)); ("htm", VStr meth); ("htu", VStr url); ("iat", VInt (dp_now E))] = Ok jws.

(** ** pushed authorization: settings *)
Definition par_settings (c : ctx) (body_format merge_rule endpoint : string) : Prop :=
  (exists d, dget "pushed_authorization" (add_on c) = Some (VDict d) /\
     dget "body_format" d = Some (VStr body_format) /\ dget "merge_rule" d = Some (VStr merge_rule)) /\
  dget "pushed_authorization_request_endpoint" (provider_info c) = Some (VStr endpoint).
