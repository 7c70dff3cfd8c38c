(** Specification for C79: logging out after a completed login. *)
From Verif Require Import Base Json Msg M_State M_Ctx M_Codec M_ClientAuth M_Service M_Token M_Handler S_Token S_Flow S_Trace.

(** the URIs to send the user to after a logout are texts, if there are any *)
Definition list_of_texts (o : option val) : Prop := forall v, o = Some v -> exists l, v = strs l.
(** the client can log users out: its provider has a logout endpoint *)
Definition can_log_out (cl : client) (c : ctx) (ep : string) : Prop :=
  has_service cl "end_session" = true /\ dget "end_session_endpoint" (provider_info c) = Some (VStr ep) /\ u_query (urlsplit ep) = "" /\
  list_of_texts (dget "post_logout_redirect_uris" (register_args c)) /\ list_of_texts (dget "post_logout_redirect_uris" (callback c)).
(** neither a logout that draws the same logout state [ls] again, nor the removal of a session *)
Definition spares_logout (ls : string) (o : call) : Prop := match o with CLogout W _ _ => e_lstate W <> ls | CClear _ => False | _ => True end.
(** the logout request [inf]: a redirect of the user to the provider's endpoint, with the ID
    Token the user logged in with and the logout state [ls] *)
Definition logout_sent (ep raw ls : string) (inf : info) : Prop :=
  i_method inf = "GET" /\ i_body inf = None /\ u_base (urlsplit (i_url inf)) = u_base (urlsplit ep) /\
  query_has (i_url inf) "id_token_hint" raw /\ query_has (i_url inf) "state" ls.
