(** Model of the example application (example/flask_rp/views.py): the pages of a relying party
    that uses the handler, and the browsers that visit them.

    Simplifications: all clients are set up (the set-up is M_Setup.v; a provider that has no
    client yet gets the answer 400 here); logins by user identifier are left out; the session
    Flask keeps in a signed cookie is the one the browser got last; a visit is served
    completely before the next one (concurrent calls are M_Conc.v). *)
From Verif Require Import Base Json Msg M_State M_Ctx M_Codec M_Authz M_ClientAuth M_Service M_Token M_Handler.

(** the handler, its table hash2issuer, and what Flask keeps for each browser *)
Record app := mkapp { ap_rph : handler; ap_hash : dict string; ap_session : nat -> dict val }.
Definition with_rph (h : handler) (a : app) : app := mkapp h (ap_hash a) (ap_session a).
Definition note (b : nat) (key : string) (v : val) (a : app) : app :=
  mkapp (ap_rph a) (ap_hash a) (fun b' => if Nat.eqb b b' then dset key v (ap_session a b') else ap_session a b').

(** what the browser gets *)
Inductive page :=
| PIndex                                             (* the list of providers *)
| PRedirect (url : string)
| PStatus (code : Z)
| PUser (userinfo : dict val) (token id_token : val) (* opresult.html *)
| PFail (error : val)                                (* 400 with the error of the provider *)
| PIframe (client_id session_state : val) (issuer : string)
| PText (text : string)
| PCrash (e : exn).                                  (* 500 *)

(** 77-94 *)
Definition get_rp (a : app) (op : option string) : option string :=
  match op with
  | None => None
  | Some o => match dget o (ap_hash a) with
              | Some iss => if dhas iss (ap_rph a) then Some iss else None
              | None => if dhas o (ap_rph a) then Some o else None
              end
  end.
(** urllib.parse.splitquery *)
Definition splitquery (url : string) : string :=
  match rev (split_on "?"%char url) with
  | _ :: x :: r => join "?" (rev (x :: r))
  | _ => url
  end.
(** 159-168; the other three attributes of the context are always empty lists *)
Fixpoint op_by_cb_uri (uri : string) (h : handler) : option string :=
  match h with
  | [] => None
  | (k, cl) :: r => if mem_str uri (redirect_uris (cl_ctx cl)) then Some k else op_by_cb_uri uri r
  end.
(** 22-29 *)
Definition compact (qs : dict (list string)) : dict val :=
  map (fun kv => (fst kv, match snd kv with [v] => VStr v | l => strs l end)) qs.
(** the claims /rp asks for, 54-58 *)
Definition rp_req_args : dict val :=
  [("claims", VDict [("id_token", VDict [("acr", VDict [("value", VStr "https://refeds.org/profile/mfa")])])])].

(** 97-156 *)
Definition finalize_page (W : env) (b : nat) (op : option string) (args : dict val) (a : app) : page * app :=
  match get_rp a op with
  | None => (PStatus 400, a)
  | Some i =>
      match dget i (ap_rph a) with
      | None => (PStatus 400, a)
      | Some cl =>
          let a := note b "client_id" (VStr (client_id (cl_ctx cl))) a in
          let st := match dget "state" args with Some v => v | None => VNone end in
          let a := note b "state" st a in
          if truthy st then
            match st with
            | VStr s =>
                match get_iss (sdb (cl_ctx cl)) s with
                | Err e => (PCrash e, a)
                | Ok iss =>
                    let a := note b "session_state" (match dget "session_state" args with Some v => v | None => VStr "" end) a in
                    match iss with
                    | VStr j =>
                        let (r, h) := h_finalize W j args false (ap_rph a) in
                        let a := with_rph h a in
                        match r with
                        | Ok (FOk info _ tok idt _) => (PUser info tok idt, a)
                        | Ok (FError _ e) => (PFail e, a)
                        | Err OidcServiceError => (PStatus 403, a)
                        | Err e => (PCrash e, a)
                        end
                    | _ => (PCrash (KeyError "None"), a)
                    end
                end
            | _ => (PCrash TypeError, a)
            end
          else (PStatus 400, a)
      end
  end.

(** ** the pages *)
Inductive visit :=
| VRp (W : env) (b : nat) (dyn_iss static_iss : string)
| VAuthzCb (W : env) (b : nat) (url : string) (args : dict val)
| VRepostFragment (W : env) (b : nat) (fragment op : string)
| VLogout (W : env) (b : nat)
| VSessionIframe (b : nat)
| VSessionChange (b : nat)
| VSessionLogout (url : string)
| VBackchannel (vrf : ctx -> msg -> res msg) (op data : string)
| VFrontchannel (op sid iss : string).

Definition serve (a : app) (v : visit) : page * app :=
  match v with
  (* 43-74 *)
  | VRp W b dyn static =>
      let iss := if dyn =?s "" then static else dyn in
      if iss =?s "" then (PIndex, a)
      else
        let a := note b "op_identifier" (VStr iss) a in
        let (r, h) := on_client iss (fun cl => init_authorization W cl rp_req_args None) (ap_rph a) in
        match r with
        | Ok (url, _) => (PRedirect url, with_rph h a)
        | Err _ => (PStatus 400, with_rph h a)
        end
  (* 171-174 *)
  | VAuthzCb W b url args => finalize_page W b (op_by_cb_uri (splitquery url) (ap_rph a)) args a
  (* 182-186 *)
  | VRepostFragment W b fragment op => finalize_page W b (Some op) (compact (parse_qs fragment)) a
  (* 244-249 *)
  | VLogout W b =>
      match dget "state" (ap_session a b) with
      | None => (PCrash (KeyError "state"), a)
      | Some (VStr st) => let (r, h) := h_logout W st "" (ap_rph a) in
                          match r with
                          | Ok i => (PRedirect (i_url i), with_rph h a)
                          | Err e => (PCrash e, with_rph h a)
                          end
      | Some _ => (PCrash TypeError, a)
      end
  (* 195-212; without the add-on status_check the template is not found: left out *)
  | VSessionIframe b =>
      match dget "op_identifier" (ap_session a b) with
      | Some (VStr op) =>
          match get_rp a (Some op) with
          | None => (PCrash AttributeError, a)
          | Some _ => match dget op (ap_hash a), dget "client_id" (ap_session a b), dget "session_state" (ap_session a b) with
                      | Some iss, Some cid, Some ss => (PIframe cid ss iss, a)
                      | None, _, _ => (PCrash (KeyError op), a)
                      | _, None, _ => (PCrash (KeyError "client_id"), a)
                      | _, _, None => (PCrash (KeyError "session_state"), a)
                      end
          end
      | _ => (PCrash (KeyError "op_identifier"), a)
      end
  (* 215-233: a Service has no method multiple_extend_request_args *)
  | VSessionChange b =>
      match dget "op_identifier" (ap_session a b) with
      | None => (PCrash (KeyError "op_identifier"), a)
      | Some _ => (PCrash AttributeError, a)
      end
  (* 236-241 *)
  | VSessionLogout url =>
      match get_rp a (op_by_cb_uri (splitquery url) (ap_rph a)) with
      | Some i => match dget i (ap_rph a) with
                  | Some cl => (PText ("Post logout from " ++ issuer (cl_ctx cl))%string, a)
                  | None => (PCrash AttributeError, a)
                  end
      | None => (PCrash AttributeError, a)
      end
  (* 252-262: a client has no attribute session_interface *)
  | VBackchannel vrf op data =>
      match get_rp a (Some op) with
      | None => (PStatus 400, a)   (* AttributeError, caught *)
      | Some i => match dget i (ap_rph a) with
                  | Some cl => match backchannel_logout vrf data [] (cl_ctx cl) with
                               | Err _ => (PStatus 400, a)
                               | Ok _ => (PCrash AttributeError, a)
                               end
                  | None => (PStatus 400, a)
                  end
      end
  (* 265-274 *)
  | VFrontchannel op sid iss =>
      match get_rp a (Some op) with
      | None => (PCrash AttributeError, a)
      | Some i => match dget i (ap_rph a) with
                  | Some cl => if iss =?s issuer (cl_ctx cl) then (PCrash AttributeError, a) else (PStatus 400, a)
                  | None => (PCrash AttributeError, a)
                  end
      end
  end.
Definition serve_all (a : app) (vs : list visit) : app := fold_left (fun a v => snd (serve a v)) vs a.
