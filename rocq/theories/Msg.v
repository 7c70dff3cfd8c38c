(** Model of the part of [oidcmsg.message.Message] (oidcmsg 1.6, not in /repo)
    that the code relies on.  Trusted description; see DESIGN.md.

    A message instance is the ordered dictionary of its parameters.  A message
    class is described by which declared parameters are space separated lists
    ([c_sp]), which are JSON objects ([c_json]), its default values and its
    required parameters.  Simplification: type checks of declared parameters
    (wrong Python type -> ValueError) are not modelled. *)
From Verif Require Import Base Json.

Definition msg := dict val.

Record mcls := { c_sp : list string; c_json : list string; c_default : msg; c_req : list string; c_par : list string }.

(** plain [Message]: no declared parameters *)
Definition cMessage : mcls := {| c_sp := []; c_json := []; c_default := []; c_req := []; c_par := [] |}.

(** [Message.__setitem__] / [_add_value] on a declared or undeclared parameter *)
Definition msg_set (c : mcls) (k : string) (v : val) (m : msg) : res msg :=
  if mem_str k (c_json c) then
    match v with
    | VDict _ => Ok (dset k v m)
    | VStr s => match json_loads s with
                | Some w => Ok (dset k w m)
                | None => Err JSONDecodeError
                end
    | _ => Err ValueError
    end
  else if mem_str k (c_sp c) then
    match v with
    | VStr s => Ok (dset k (strs (split_on sp s)) m)
    | _ => Ok (dset k v m)
    end
  else Ok (dset k v m).

(** [from_dict] skips the values "" and [""] *)
Definition skipped (v : val) : bool :=
  match v with VStr "" => true | VList [VStr ""] => true | _ => false end.

Fixpoint msg_from_dict (c : mcls) (d : dict val) (m : msg) : res msg :=
  match d with
  | [] => Ok m
  | (k, v) :: r =>
      if skipped v then msg_from_dict c r m
      else match msg_set c k v m with
           | Ok m' => msg_from_dict c r m'
           | Err e => Err e
           end
  end.

(** [Class( **kwargs )] *)
Definition msg_new (c : mcls) (d : dict val) : res msg := msg_from_dict c d (c_default c).

(** [Class().from_json(txt)] *)
Definition msg_from_json (c : mcls) (txt : string) : res msg :=
  match json_loads txt with
  | Some (VDict d) => msg_from_dict c d (c_default c)
  | Some _ => Err AttributeError
  | None => Err JSONDecodeError
  end.

Fixpoint all_strs (l : list val) : option (list string) :=
  match l with
  | [] => Some []
  | VStr s :: r => match all_strs r with Some t => Some (s :: t) | None => None end
  | _ :: _ => None
  end.

(** [to_dict]: serialise declared parameters *)
Definition ser_param (c : mcls) (kv : string * val) : string * val :=
  let (k, v) := kv in
  if mem_str k (c_json c) then (k, VStr (json_dumps v))
  else if mem_str k (c_sp c) then
    match v with
    | VList l => match all_strs l with Some ws => (k, VStr (join " " ws)) | None => (k, v) end
    | _ => (k, v)
    end
  else (k, v).
Definition msg_to_dict (c : mcls) (m : msg) : dict val := map (ser_param c) m.
Definition msg_to_json (c : mcls) (m : msg) : string := json_dumps (VDict (msg_to_dict c m)).

(** [verified_claim_name(c)] (oidcmsg.oidc) *)
Definition verified (c : string) : string := ("__verified_" ++ c)%string.

(** [is_error_message(m)]: an "error" member is present (oidcmsg.oauth2) *)
Definition is_error_message (m : msg) : bool := dhas "error" m.
