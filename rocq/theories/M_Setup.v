(** Model of setting up clients: rp_handler.py 140-187 (init_client), 249-285
    (do_client_registration), 287-301 (do_webfinger), 303-354 (client_setup), 425-453 (begin);
    service_context.py 116-192 and oidc/__init__.py 106-123 (the context of a new client). *)
From Verif Require Import Base Json Msg M_State M_Ctx M_Codec M_Authz M_ClientAuth M_Service M_Token M_Handler
  M_Provider M_Registration M_WebFinger.

Definition sub_dict (k : string) (d : dict val) : dict val :=
  match dget k d with Some (VDict x) => x | _ => [] end.
Definition sub_strs (k : string) (d : dict val) : list string :=
  match dget k d with
  | Some (VList l) => flat_map (fun v => match v with VStr s => [s] | _ => [] end) l
  | _ => []
  end.

(** service_context.py 116-192, oidc/__init__.py 116-123, rp_handler.py 179-186.
    Simplifications: members of the configuration that are not of the expected type are
    taken as absent; clock skew and the requests directory are not modelled; for the keys see
    M_Keys.v. *)
Definition new_ctx (base jwksuri : string) (cnf : dict val) : ctx :=
  let pi := sub_dict "provider_info" cnf in
  let iss := str_of (dget "issuer" cnf) in
  mkctx (if iss =?s "" then str_of (dget "issuer" pi) else iss)
    (str_of (dget "client_id" cnf)) (str_of (dget "client_secret" cnf)) base jwksuri (VDict [])
    (sub_strs "redirect_uris" cnf)
    (fold_left (fun cb k => match dget k cnf with Some v => if truthy v then dset k v cb else cb | None => cb end)
       CALLBACK_URIS (sub_dict "callback" cnf))
    (sub_dict "behaviour" cnf) pi []
    (flat_map (fun k => match dget k cnf with Some v => [(k, v)] | None => [] end) (dkeys registration_params))
    (sub_dict "client_preferences" cnf) cnf (sub_dict "allow" cnf) [] [].

(** What instantiating the client class with a configuration gives: the services and
    their configurations, whether PKCE is on, the services' endpoint names; it may raise. *)
Record made := mkmade { md_services : list string; md_conf : dict (dict val); md_pkce : bool; md_eps : list sep }.
(** the handler: clients by issuer; the configuration each client was made from; the
    configurations; hash2issuer *)
Record hstate := mkh {
  hs_rps : handler;
  hs_from : dict string;
  hs_cfgs : dict (dict val);
  hs_hash : dict val
}.
(** fixed properties of a handler *)
Record hconf := mkhc {
  hc_base : string;
  hc_jwks_uri : string;
  hc_make : dict val -> res made;
  hc_seed : string;                (* hash seed of the new client's context *)
  hc_sha : string -> string;
  hc_nok : string -> bool
}.

(** 140-158: the configuration used and its name; picking the default configuration
    writes the issuer into it (it is one object for all clients made from it) *)
Definition use_config (iss : string) (cfgs : dict (dict val)) : res (string * dict val) * dict (dict val) :=
  match dget iss cfgs with
  | Some c => (Ok (iss, c), cfgs)
  | None => match dget "" cfgs with
            | None => (Err (KeyError ""), cfgs)
            | Some c => let c' := dset "issuer" (VStr iss) c in (Ok ("", c'), dset "" c' cfgs)
            end
  end.
(** a client under construction *)
Record temp := mktemp { tm_key : string; tm_client : client; tm_eps : list sep }.
(** 140-187 *)
Definition init_client (H : hconf) (iss : string) (cfgs : dict (dict val)) : res temp * dict (dict val) :=
  match use_config iss cfgs with
  | (Err e, cfgs') => (Err e, cfgs')
  | (Ok (key, cnf), cfgs') =>
      (let! m := hc_make H cnf in
       Ok (mktemp key (mkclient (new_ctx (hc_base H) (hc_jwks_uri H) cnf) (md_services m) (md_conf m) (md_pkce m)) (md_eps m)),
       cfgs')
  end.

(** The behaviour of a context whose configuration has a 'behaviour' member is that very
    member (service_context.py 149-151): what negotiation writes there is seen by every
    client made from the same configuration.  [share] carries it over; it also carries the
    issuer written into the default configuration. *)
Definition set_config (v : dict val) (c : ctx) : ctx :=
  mkctx (issuer c) (client_id c) (client_secret c) (base_url c) (jwks_uri c) (jwks c) (redirect_uris c)
    (callback c) (behaviour c) (provider_info c) (registration_response c) (register_args c)
    (client_preferences c) v (allow c) (add_on c) (sdb c).
Definition reread (cnf : dict val) (c : ctx) : ctx :=
  set_config cnf (match dget "behaviour" cnf with Some (VDict b) => set_behaviour b c | _ => c end).
Definition share (cfgs : dict (dict val)) (from : dict string) (rps : handler) : handler :=
  map (fun e => match dget (fst e) from with
                | Some key => match dget key cfgs with
                              | Some cnf => (fst e, set_ctx (reread cnf (cl_ctx (snd e))) (snd e))
                              | None => e
                              end
                | None => e
                end) rps.
Definition write_back (key : string) (b : dict val) (cfgs : dict (dict val)) : dict (dict val) :=
  match dget key cfgs with
  | Some cnf => match dget "behaviour" cnf with
                | Some (VDict _) => dset key (dset "behaviour" (VDict b) cnf) cfgs
                | _ => cfgs
                end
  | None => cfgs
  end.

(** the service object of WebFinger; [vrf]: verification of the JRD *)
Definition webfinger_service (vrf : ctx -> msg -> res msg) (conf : dict val) : service :=
  mkservice "webfinger" cMessage false cMessage "" "" "GET" "urlencoded" "json" (fun _ => "") conf []
    [] [] (fun a _ => Ok a) [] vrf (fun m _ => ret m) (fun m _ => update_webfinger "" conf m ;;; ret m) None.
(** 287-301: do_request('webfinger', resource=user) on a client made for '' *)
Definition do_webfinger (W : env) (H : hconf) (user : string) (cl : client) : M response := fun c =>
  if has_service cl "webfinger" then
    match webfinger_request (hc_nok H) [] [("resource", VStr user)] (config c) with
    | Err e => (Err e, c)
    | Ok u => service_request (e_http W) (e_jwt W) (webfinger_service (e_vrf W "webfinger") (conf_of cl "webfinger"))
                u "GET" None "json" [] (Some "") c
    end
  else (Err (KeyError "webfinger"), c).

(** 337-353: provider information and registration for a new client, then filing it *)
Definition setup_new (W : env) (H : hconf) (iss : string) (beh : dict val) (t : temp) (s : hstate) : res string * hstate :=
  let cl := tm_client t in
  let finish c r hash rps from :=
    let cfgs := write_back (tm_key t) (behaviour c) (hs_cfgs s) in
    (r, mkh (share cfgs from rps) from cfgs hash) in
  match do_provider_info W (mkp (cl_ctx cl) (tm_eps t) []) with
  | (Err e, p) => finish (p_ctx p) (Err e) (hs_hash s) (hs_rps s) (hs_from s)
  | (Ok v, p) =>
      let c1 := p_ctx p in
      let hash := dset iss (VStr (issuer c1)) (hs_hash s) in
      let args := filter (fun kv => dhas (fst kv) registration_params) beh in
      match load_registration_response W cl (hc_sha H) (hc_seed H) args c1 with
      | (Err e, c2) => finish c2 (Err e) hash (hs_rps s) (hs_from s)
      | (Ok _, c2) =>
          match v with
          | VStr i => finish c2 (Ok i) hash (dset i (set_ctx c2 cl) (hs_rps s)) (dset i (tm_key t) (hs_from s))
          | _ => finish c2 (Err TypeError) hash (hs_rps s) (hs_from s)
          end
      end
  end.
Definition set_cfgs (cfgs : dict (dict val)) (s : hstate) : hstate :=
  mkh (share cfgs (hs_from s) (hs_rps s)) (hs_from s) cfgs (hs_hash s).
(** 303-354: the key under which the client is found afterwards *)
Definition client_setup (W : env) (H : hconf) (iss user : string) (beh : dict val) (s : hstate) : res string * hstate :=
  if iss =?s "" then
    if user =?s "" then (Err ValueError, s)
    else
      match init_client H "" (hs_cfgs s) with
      | (Err e, cfgs) => (Err e, set_cfgs cfgs s)
      | (Ok t, cfgs) =>
          let s1 := set_cfgs cfgs s in
          match do_webfinger W H user (tm_client t) (cl_ctx (tm_client t)) with
          | (Err e, _) => (Err e, s1)
          | (Ok _, c) =>
              if dhas iss (hs_rps s1) then (Ok iss, s1)
              else setup_new W H iss beh (mktemp (tm_key t) (set_ctx c (tm_client t)) (tm_eps t)) s1
          end
      end
  else if dhas iss (hs_rps s) then (Ok iss, s)
  else
    match init_client H iss (hs_cfgs s) with
    | (Err e, cfgs) => (Err e, set_cfgs cfgs s)
    | (Ok t, cfgs) => setup_new W H iss beh t (set_cfgs cfgs s)
    end.

(** 425-453; [W] supplies the random strings of the authorization request as well *)
Definition with_rps (rps : handler) (s : hstate) : hstate := mkh rps (hs_from s) (hs_cfgs s) (hs_hash s).
Definition begin (W : env) (H : hconf) (iss user : string) (reqs : dict val) (beh : option (dict val)) (s : hstate)
  : res (string * string) * hstate :=
  match client_setup W H iss user (match beh with Some b => b | None => [] end) s with
  | (Err e, s1) => (Err e, s1)
  | (Ok i, s1) => let (r, h) := on_client i (fun cl => init_authorization W cl reqs beh) (hs_rps s1) in (r, with_rps h s1)
  end.
