(** Specification for T_Flask.v: what the pages of the example application may ask of the
    handler, and which visits are the callbacks of a login. *)
From Verif Require Import Base Json Msg M_State S_State M_Ctx M_Codec M_Authz M_ClientAuth M_Service M_Token M_Handler S_Flow S_Trace S_Route M_Flask.

(** an application that has just been started *)
Definition fresh_app (a : app) : Prop := fresh_handler (ap_rph a) /\ forall b, ap_session a b = [].
(** session keys are as the library makes them *)
Definition visit_ok (v : visit) : Prop := match v with VRp W _ _ _ => rnd32 (e_state W) | _ => True end.

(** the browser that makes the visit (back- and front-channel requests and the page after a
    logout use no session) *)
Definition browser (v : visit) : option nat :=
  match v with
  | VRp _ b _ _ | VAuthzCb _ b _ _ | VRepostFragment _ b _ _ | VLogout _ b | VSessionIframe b | VSessionChange b => Some b
  | VSessionLogout _ | VBackchannel _ _ _ | VFrontchannel _ _ _ => None
  end.
(** the provider the user chooses on the first page: the one typed in, or the one of the list *)
Definition chosen_op (dyn static : string) : string := if dyn =?s "" then static else dyn.
(** the visit begins a login with key [s] at provider [i] *)
Definition begins_login (s i : string) (v : visit) : Prop :=
  exists W b dyn static, v = VRp W b dyn static /\ e_state W = s /\ chosen_op dyn static = i.
(** the visit brings an answer of a provider back *)
Definition callback (v : visit) : option (env * nat * dict val) :=
  match v with
  | VAuthzCb W b _ args => Some (W, b, args)
  | VRepostFragment W b fragment _ => Some (W, b, compact (parse_qs fragment))
  | _ => None
  end.
(** the client the answer is for, by the address of the callback or by the name in it *)
Definition callback_client (a : app) (v : visit) : option string :=
  match v with
  | VAuthzCb _ _ url _ => get_rp a (op_by_cb_uri (splitquery url) (ap_rph a))
  | VRepostFragment _ _ _ op => get_rp a (Some op)
  | _ => None
  end.
Definition state_arg (args : dict val) : val := match dget "state" args with Some v => v | None => VNone end.

(** the call on the handler a visit to application [a] may make *)
Definition makes (a : app) (v : visit) (o : hcall) : Prop :=
  match o with
  | HInit W i reqs beh => exists b dyn static, v = VRp W b dyn static /\ i = chosen_op dyn static /\ reqs = rp_req_args /\ beh = None
  | HFinalize W i resp collect => exists b, callback v = Some (W, b, resp) /\ callback_client a v <> None /\ collect = false
  | HLogout W st uri => exists b, v = VLogout W b /\ dget "state" (ap_session a b) = Some (VStr st) /\ uri = ""
  | _ => False
  end.
(** what the last answer for a known client that browser [b] brought back says is the state *)
Definition brought (a : app) (b : nat) (v : visit) : option val :=
  match callback v, callback_client a v with
  | Some (_, b', args), Some _ => if Nat.eqb b b' then Some (state_arg args) else None
  | _, _ => None
  end.
Fixpoint last_brought (a : app) (b : nat) (vs : list visit) : option val :=
  match vs with
  | [] => None
  | v :: r => match last_brought a b r with Some x => Some x | None => brought a b v end
  end.
(** the page says that a user is logged in *)
Definition welcomes (p : page) : Prop := match p with PUser _ _ _ => True | _ => False end.
