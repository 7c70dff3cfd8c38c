(** Specification vocabulary for setting up clients. *)
From Verif Require Import Base Json Msg M_State S_State M_Ctx M_Codec M_Authz M_ClientAuth M_Service M_Token M_Handler
  M_Provider M_Registration M_WebFinger M_Setup S_Flow S_Trace S_Route.

(** two clients that agree on everything but the behaviour and the raw configuration *)
Definition same_but_config (cl cl' : client) : Prop :=
  exists b v, cl' = set_ctx (set_config v (set_behaviour b (cl_ctx cl))) cl.
(** the client filed under [i] is still there, with its sessions *)
Definition kept (i : string) (s s' : hstate) : Prop :=
  forall cl, dget i (hs_rps s) = Some cl -> exists cl', dget i (hs_rps s') = Some cl' /\ same_but_config cl cl'.

(** ** steps of an application *)
Inductive step :=
| SBegin (W : env) (H : hconf) (iss user : string) (reqs : dict val) (beh : option (dict val))
| SSetup (W : env) (H : hconf) (iss user : string) (beh : dict val)
| SCall (o : hcall).
Definition run_step (s : hstate) (x : step) : hstate :=
  match x with
  | SBegin W H iss user reqs beh => snd (begin W H iss user reqs beh s)
  | SSetup W H iss user beh => snd (client_setup W H iss user beh s)
  | SCall o => with_rps (run_hcall (hs_rps s) o) s
  end.
Definition run_steps (s : hstate) (xs : list step) : hstate := fold_left run_step xs s.

(** Setting up is harmless to others: it fails, or the client exists, or the new client is
    filed under its own issuer and no client was there before. *)
Definition harmless_setup (W : env) (H : hconf) (iss user : string) (beh : dict val) (s : hstate) : Prop :=
  match client_setup W H iss user beh s with
  | (Err _, _) => True
  | (Ok i, s') => dget iss (hs_rps s) <> None \/
      (dget i (hs_rps s) = None /\ i <> "" /\ forall cl, dget i (hs_rps s') = Some cl -> issuer (cl_ctx cl) = i)
  end.
(** made clients have plain service configurations, keys are as the library makes them *)
Definition makes_plain (H : hconf) : Prop :=
  forall cnf m c, hc_make H cnf = Ok m -> plain_client (mkclient c (md_services m) (md_conf m) (md_pkce m)).
Definition step_ok (s : hstate) (x : step) : Prop :=
  match x with
  | SBegin W H iss user reqs beh => rnd32 (e_state W) /\ makes_plain H /\
      harmless_setup W H iss user (match beh with Some b => b | None => [] end) s
  | SSetup W H iss user beh => makes_plain H /\ harmless_setup W H iss user beh s
  | SCall o => hcall_ok o
  end.
Fixpoint steps_ok (s : hstate) (xs : list step) : Prop :=
  match xs with [] => True | x :: r => step_ok s x /\ steps_ok (run_step s x) r end.
(** the step neither begins session [k] again nor clears it *)
Definition step_leaves (k : string) (x : step) : Prop :=
  match x with
  | SBegin W _ _ _ _ _ => e_state W <> k
  | SSetup _ _ _ _ _ => True
  | SCall o => hleaves k o
  end.
(** a handler without clients *)
Definition no_clients (s : hstate) : Prop := hs_rps s = [].

(** ** C47 *)
(** the configuration from which a client for [iss] is made *)
Definition config_name (iss : string) (s : hstate) : string := if dhas iss (hs_cfgs s) then iss else "".
(** the configuration [key] holds a behaviour of its own *)
Definition holds_behaviour (key : string) (s : hstate) : Prop :=
  exists cnf b, dget key (hs_cfgs s) = Some cnf /\ dget "behaviour" cnf = Some (VDict b).
