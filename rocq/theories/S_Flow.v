(** Specification vocabulary for the authorization request. *)
From Verif Require Import Base Json Msg M_State S_State M_Ctx M_Codec M_ClientAuth M_Service M_Token M_Handler S_Token.

(** what the client configuration says under 'request_args' *)
Definition configured (c : ctx) (p : string) : option val :=
  match dget "request_args" (config c) with Some (VDict d) => dget p d | _ => None end.
(** Python dictionaries have unique keys *)
Definition uniq (d : dict val) : Prop := NoDup (dkeys d).
Definition config_uniq (c : ctx) : Prop := forall d, dget "request_args" (config c) = Some (VDict d) -> uniq d.
(** the caller's value, else the configured one, else [dflt] *)
Definition chosen (c : ctx) (reqs : dict val) (p : string) (dflt : option val) : option val :=
  match dget p reqs with Some v => Some v | None => match configured c p with Some v => Some v | None => dflt end end.
(** the first of the response types the client was set up with *)
Definition first_response_type (c : ctx) : option val :=
  match dget "response_types" (behaviour c) with Some (VList (v :: _)) => Some v | _ => None end.
(** services without extra pre/post_construct arguments in their configuration *)
Definition plain_conf (conf : dict val) : Prop := dget "pre_construct" conf = None /\ dget "post_construct" conf = None.
(** callers that do not ask for a request object *)
Definition no_request_object (beh : option (dict val)) : Prop :=
  match beh with Some b => ~ In "request_param" (dkeys b) | None => True end.
(** a parameter of the query of a URL *)
Definition query_has (u p v : string) : Prop := form_has (u_query (urlsplit u)) p v.
(** the PKCE settings of a client: verifier length and challenge method *)
Definition pkce_setting (c : ctx) (n : nat) (m : string) : Prop :=
  exists conf, dget "pkce" (add_on c) = Some (VDict conf) /\
    match dget "code_challenge_length" conf with None => n = 64 | Some v => exists z, v = VInt z /\ n = Z.to_nat z end /\
    match dget "code_challenge_method" conf with None => m = "S256" | Some v => v = VStr m end.
(** the unreserved characters of RFC 7636 that the library draws from *)
Definition unreserved_char (a : ascii) : bool := is_alnum a.
