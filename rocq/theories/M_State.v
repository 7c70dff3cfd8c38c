(** Model of src/oidcrp/state_interface.py *)
From Verif Require Import Base Json Msg.

(** state_interface.py 13-23: class State *)
Definition state_json_params : list string :=
  ["auth_request"; "auth_response"; "token_response"; "refresh_token_request";
   "refresh_token_response"; "user_info"].
Definition cState : mcls :=
  {| c_sp := []; c_json := state_json_params; c_default := []; c_req := ["iss"];
     c_par := "iss" :: state_json_params |}.

(** state_interface.py 84-86: [self._db = {}], a dict from keys to JSON text or,
    for index entries, to a session key. *)
Definition db := dict string.

(** state_interface.py 26-31: KEY_PATTERN *)
Definition key_pattern (xtyp : string) : option string :=
  dget xtyp [("nonce", "__"); ("logout state", "::"); ("session id", ".."); ("subject id", "==")].
Definition fmt (w v : string) : string := (w ++ v ++ w)%string.
Definition index_key (xtyp v : string) : res string :=
  match key_pattern xtyp with Some w => Ok (fmt w v) | None => Err (KeyError xtyp) end.
(** "ref{}ref".format(state) *)
Definition ref_key (state : string) : string := fmt "ref" state.

(** state_interface.py 88-99 *)
Definition get_state (d : db) (key : string) : res msg :=
  match dget key d with
  | None => Err (KeyError key)
  | Some data => if data =?s "" then Err (KeyError key) else msg_from_json cState data
  end.

(** an item argument: a Message (its serialised dictionary) or any other value *)
Inductive item := IMsg (c : mcls) (m : msg) | IRaw (v : val).

(** state_interface.py 101-121 *)
Definition store_item (i : item) (item_type key : string) (d : db) : res unit * db :=
  let st := match get_state d key with
            | Ok s => Ok s
            | Err (KeyError _) => Ok []
            | Err e => Err e
            end in
  match st with
  | Err e => (Err e, d)
  | Ok s =>
      let v := match i with IMsg c m => VStr (msg_to_json c m) | IRaw v => v end in
      match msg_set cState item_type v s with
      | Err e => (Err e, d)
      | Ok s' => (Ok tt, dset key (msg_to_json cState s') d)
      end
  end.

(** state_interface.py 123-133 *)
Definition get_iss (d : db) (key : string) : res val :=
  match get_state d key with
  | Err e => Err e
  | Ok [] => Err (KeyError key)
  | Ok s => dict_get "iss" s
  end.

(** state_interface.py 135-150: a JSON object is unpacked as keyword arguments,
    anything else raises TypeError and is then parsed as JSON text (which again
    raises TypeError unless it is a string). *)
Definition get_item (d : db) (c : mcls) (item_type key : string) : res msg :=
  match get_state d key with
  | Err e => Err e
  | Ok s =>
      match dget item_type s with
      | None => Err (KeyError item_type)
      | Some (VDict i) => msg_new c i
      | Some (VStr txt) => msg_from_json c txt
      | Some _ => Err TypeError
      end
  end.

(** the loop body shared by state_interface.py 178-191 and 218-232 *)
Definition fill_param (orig : bool) (it : msg) (args : dict val) (p : string) : dict val :=
  if orig then match dget p it with Some v => dset p v args | None => args end
  else match dget (verified p) it with
       | Some v => dset p v args
       | None => match dget p it with Some v => dset p v args | None => args end
       end.
Definition fill_params (orig : bool) (it : msg) (args : dict val) (ps : list string) : dict val :=
  fold_left (fill_param orig it) ps args.

(** state_interface.py 152-192 *)
Definition extend_request_args (d : db) (args : dict val) (c : mcls) (item_type key : string)
  (ps : list string) (orig : bool) : res (dict val) :=
  match get_item d c item_type key with
  | Err (KeyError _) => Ok args
  | Err e => Err e
  | Ok it => Ok (fill_params orig it args ps)
  end.

(** state_interface.py 213-232: one item type after the other *)
Fixpoint mult_extend_loop (st : msg) (args : dict val) (ps typs : list string) (orig : bool)
  : res (dict val) :=
  match typs with
  | [] => Ok args
  | t :: r =>
      match dget t st with
      | None => mult_extend_loop st args ps r orig
      | Some (VDict i) =>
          match msg_new cMessage i with
          | Ok it => mult_extend_loop st (fill_params orig it args ps) ps r orig
          | Err e => Err e
          end
      | Some _ => Err TypeError
      end
  end.
(** state_interface.py 194-234 *)
Definition multiple_extend_request_args (d : db) (args : dict val) (key : string)
  (ps typs : list string) (orig : bool) : res (dict val) :=
  match get_state d key with
  | Err e => Err e
  | Ok st => mult_extend_loop st args ps typs orig
  end.

(** state_interface.py 236-256 *)
Definition store_x2state (value state xtyp : string) (d : db) : res unit * db :=
  match index_key xtyp value with
  | Err e => (Err e, d)
  | Ok ik =>
      let d1 := dset ik state d in
      match dget (ref_key state) d1 with
      | None => (Ok tt, dset (ref_key state) (json_dumps (VDict [(xtyp, VStr value)])) d1)
      | Some txt =>
          match json_loads txt with
          | Some (VDict refs) =>
              (Ok tt, dset (ref_key state) (json_dumps (VDict (dset xtyp (VStr value) refs))) d1)
          | Some _ => (Err TypeError, d1)
          | None => (Err JSONDecodeError, d1)
          end
      end
  end.

(** state_interface.py 258-271 *)
Definition get_state_by_x (d : db) (value xtyp : string) : res string :=
  match index_key xtyp value with
  | Err e => Err e
  | Ok ik =>
      match dget ik d with
      | Some s => if s =?s "" then Err (KeyError value) else Ok s
      | None => Err (KeyError value)
      end
  end.

(** state_interface.py 273-358: the four instances *)
Definition store_nonce2state (v s : string) := store_x2state v s "nonce".
Definition get_state_by_nonce (d : db) (v : string) := get_state_by_x d v "nonce".
Definition store_logout_state2state (v s : string) := store_x2state v s "logout state".
Definition get_state_by_logout_state (d : db) (v : string) := get_state_by_x d v "logout state".
Definition store_sid2state (v s : string) := store_x2state v s "session id".
Definition get_state_by_sid (d : db) (v : string) := get_state_by_x d v "session id".
Definition store_sub2state (v s : string) := store_x2state v s "subject id".
Definition get_state_by_sub (d : db) (v : string) := get_state_by_x d v "subject id".

(** state_interface.py 360-376; [rnd] is the value rndstr(32) would return *)
Definition create_state (rnd iss key : string) (d : db) : res string * db :=
  if key =?s "" then
    match msg_new cState [("iss", VStr iss)] with
    | Ok s => (Ok rnd, dset rnd (msg_to_json cState s) d)
    | Err e => (Err e, d)
    end
  else if starts_with "__" key && ends_with "__" key then (Err ValueError, d)
  else match msg_new cState [("iss", VStr iss)] with
       | Ok s => (Ok key, dset key (msg_to_json cState s) d)
       | Err e => (Err e, d)
       end.

(** state_interface.py 387-388: the deletion loop *)
Fixpoint remove_refs (refs : list (string * val)) (d : db) : res unit * db :=
  match refs with
  | [] => (Ok tt, d)
  | (xtyp, VStr v) :: r =>
      match index_key xtyp v with
      | Err e => (Err e, d)
      | Ok ik => if dhas ik d then remove_refs r (ddel ik d) else (Err (KeyError ik), d)
      end
  | _ => (Err OtherError, d)   (* references are always strings *)
  end.
(** state_interface.py 378-388; json.loads(None) raises TypeError *)
Definition remove_state (state : string) (d : db) : res unit * db :=
  if dhas state d then
    let d1 := ddel state d in
    match dget (ref_key state) d1 with
    | None => (Err TypeError, d1)
    | Some txt =>
        match json_loads txt with
        | None => (Err JSONDecodeError, d1)
        | Some (VDict refs) => remove_refs refs d1
        | Some _ => (Err AttributeError, d1)
        end
    end
  else (Err (KeyError state), d).
