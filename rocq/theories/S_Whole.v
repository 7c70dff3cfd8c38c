(** Specification for C78: an honest login at a handler that keeps clients for many providers. *)
From Verif Require Import Base Json Msg M_State M_Ctx M_Codec M_ClientAuth M_Service M_Token M_Handler S_Token S_Flow S_Trace S_Sched S_Route S_Multi.

(** the call leaves the login with key [k] at provider [i], whose nonce is [n], alone: it
    begins no login with the key, none at the provider with the nonce, and clears at most the
    keys drawn for other providers in the calls [os] *)
Definition elsewhere (c : ctx) (i k n : string) (os : list hcall) (o : hcall) : Prop :=
  match o with
  | HInit W iss reqs _ => e_state W <> k /\ (iss = i -> ~ uses_nonce c W reqs n)
  | HClear st => st <> k /\ exists j, j <> i /\ begun_only_at st j os
  | _ => True
  end.
(** the call neither gets, refreshes nor clears the tokens of login [k] at provider [i]: it is
    about another login, or asks for the user info of this one, or logs out *)
Definition hspares (i k : string) (o : hcall) : Prop :=
  (forall W, hworld o = Some W -> tame W) /\
  (concerns i k o = false \/ match o with HUserInfo _ _ _ | HLogout _ _ _ | HClose _ _ _ _ => True | _ => False end).
