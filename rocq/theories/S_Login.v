(** Specification for C52: one login among many. *)
From Verif Require Import Base Json Msg M_State M_Ctx M_Codec M_Authz M_Service M_Token M_Handler S_Flow S_Trace.

(** no call of the history began the session [k] *)
Definition not_begun (k : string) (os : list call) : Prop := forall W reqs beh, In (CInit W reqs beh) os -> e_state W <> k.
(** the session has a token response in the store *)
Definition has_tokens (d : db) (k : string) : Prop := exists cc i, get_item d cc "token_response" k = Ok i.
