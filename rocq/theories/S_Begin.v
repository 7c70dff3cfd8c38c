(** Specification for C76: what it takes to begin a login. *)
From Verif Require Import Base Json Msg M_State M_Ctx M_Codec M_ClientAuth M_Service M_Token M_Handler S_Token S_Flow S_Trace.

(** a text that is not empty *)
Definition some_text (o : option val) : Prop := exists s, o = Some (VStr s) /\ s <> "".
(** the client knows its provider, who it is itself and where users come back to, and has
    defaults for the response type and the scope; with PKCE, a supported method *)
Definition set_up (cl : client) (c : ctx) : Prop :=
  issuer c <> "" /\ client_id c <> "" /\ (exists ep, dget "authorization_endpoint" (provider_info c) = Some (VStr ep)) /\
  (exists u us, redirect_uris c = u :: us /\ u <> "") /\ some_text (first_response_type c) /\
  (exists l, dget "scope" (behaviour c) = Some (VList l)) /\
  (cl_pkce cl = true -> exists n m, pkce_setting c n m /\ In m ["S256"; "S384"; "S512"]).
(** what the caller or the configuration says instead of these is of the same kind *)
Definition fair_args (W : env) (c : ctx) (reqs : dict val) : Prop :=
  uniq reqs /\ config_uniq c /\ e_nonce W <> "" /\
  (forall p, In p ["redirect_uri"; "response_type"; "nonce"; "client_id"] ->
     forall v, chosen c reqs p None = Some v -> some_text (Some v)) /\
  (forall v, chosen c reqs "scope" None = Some v -> exists l, v = VList l).
