(** Model of RP.fetch_distributed_claims, src/oidcrp/oidc/__init__.py 125-178. *)
From Verif Require Import Base Json Msg M_State M_Ctx M_Codec M_Authz M_ClientAuth M_Service M_Token M_Handler.

(** a GET request without body: URL and headers *)
Definition claim_request : Type := string * headers.
(** how the call ends: 155-159 FetchException with the status, or another exception *)
Inductive outcome := Done | Fetch_failed (status : Z) | Raised (e : exn).

(** 139-153: the headers of the request to one source; [cb]: the callback, if any.  A
    missing user info service is None, which has no service_name (client_auth.py 293). *)
Definition source_headers (has_userinfo : bool) (c : ctx) (cb : option (string -> res val)) (spec : dict val) (ep : string) : res headers :=
  let bearer t := if has_userinfo
                  then let! (ha, _) := bearer_header "userinfo" c [("access_token", t)] None [] in Ok (match ha with Some h => h | None => [] end)
                  else Err AttributeError in
  match dget "access_token" spec with
  | Some t => bearer t
  | None => match cb with
            | Some f => let! t := f ep in bearer t
            | None => Ok []
            end
  end.
(** 163-164, 172-174 *)
Fixpoint take_claims (src : string) (d : dict val) (names : list (string * val)) (ui : msg) : outcome * msg :=
  match names with
  | [] => (Done, ui)
  | (n, w) :: ns =>
      if val_eqb w (VStr src) then
        match dget n d with
        | None => (Raised (KeyError n), ui)
        | Some x => take_claims src d ns (dset n x ui)
        end
      else take_claims src d ns ui
  end.
(** 155-176 for one answer; [ui]: the user info so far.  An answer that is not an object
    has no keys. *)
Definition take_answer (src : string) (r : http_resp) (ui : msg) : outcome * msg :=
  if (h_status r =? 200)%Z then
    match json_loads (h_text r) with
    | None => (Raised JSONDecodeError, ui)
    | Some v =>
        match dget "_claim_names" ui with
        | None => (Raised (KeyError "_claim_names"), ui)
        | Some (VDict names) =>
            match v with
            | VDict d => take_claims src d names ui
            | _ => (Raised AttributeError, ui)
            end
        | Some _ => (Raised AttributeError, ui)
        end
    end
  else (Fetch_failed (h_status r), ui).
(** 137-176.  The result: the requests that were sent, in order, how it ended, and the user
    info message, which is changed in place.  Simplification: an endpoint that is not a
    text makes the HTTP library fail. *)
Fixpoint fetch_from (http : http_client) (has_userinfo : bool) (c : ctx) (cb : option (string -> res val))
  (sources : list (string * val)) (ui : msg) : list claim_request * (outcome * msg) :=
  match sources with
  | [] => ([], (Done, ui))
  | (src, spec) :: rest =>
      match spec_has "endpoint" spec with
      | Err e => ([], (Raised e, ui))
      | Ok false => fetch_from http has_userinfo c cb rest ui
      | Ok true =>
          match spec with
          | VDict d =>
              match dget "endpoint" d with
              | Some (VStr ep) =>
                  match source_headers has_userinfo c cb d ep with
                  | Err e => ([], (Raised e, ui))
                  | Ok h =>
                      let (log, r) :=
                        match http ep "GET" None h with
                        | Err e => ([], (Raised e, ui))
                        | Ok resp =>
                            match take_answer src resp ui with
                            | (Done, ui') => fetch_from http has_userinfo c cb rest ui'
                            | (bad, ui') => ([], (bad, ui'))
                            end
                        end in
                      ((ep, h) :: log, r)
                  end
              | _ => ([], (Raised OtherError, ui))
              end
          | _ => ([], (Raised TypeError, ui))
          end
      end
  end.
(** 125-136, 178 *)
Definition fetch_distributed_claims (http : http_client) (has_userinfo : bool) (c : ctx) (cb : option (string -> res val)) (ui : msg)
  : list claim_request * (outcome * msg) :=
  match dget "_claim_sources" ui with
  | None => ([], (Done, ui))
  | Some (VDict sources) => fetch_from http has_userinfo c cb sources ui
  | Some _ => ([], (Raised AttributeError, ui))
  end.
