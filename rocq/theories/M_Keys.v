(** Model of the key jar of a client: service_context.py 118-192 and 237-262 (the keys of a
    new client, import_keys), rp_handler.py 42-69 and 179-186 (the handler's keys and what a
    client gets of them), 189-247 (M_Provider.do_provider_info), oidc/registration.py 272-289
    (M_Registration.adopt_registration), through rp_handler.py 303-354 (client_setup).
    A jar is a list of owners and sources of keys (M_Provider.jar). *)
From Verif Require Import Base Json Msg M_State M_Ctx M_Codec M_Authz M_ClientAuth M_Service M_Token M_Handler
  M_Provider M_Registration M_Setup M_ReqObj.

(** service_context.py 237-262, import_keys.  Simplifications: as in load_key_specs files are
    readable; the files are a list (a text would be taken apart into characters). *)
Fixpoint import_rsa (files : list val) : jar :=
  match files with [] => [] | f :: r => ("", SPem f) :: import_rsa r end.
Fixpoint import_files (d : dict val) (j : jar) : res unit * jar :=
  match d with
  | [] => (Ok tt, j)
  | (typ, files) :: r =>
      if typ =?s "rsa" then
        match files with
        | VList l => import_files r (j ++ import_rsa l)
        | _ => (Err TypeError, j)
        end
      else import_files r j
  end.
Fixpoint import_keys (spec : dict val) (j : jar) : res unit * jar :=
  match spec with
  | [] => (Ok tt, j)
  | (where_, v) :: r =>
      if where_ =?s "file" then
        match v with
        | VDict d => match import_files d j with
                     | (Ok _, j1) => import_keys r j1
                     | (Err e, j1) => (Err e, j1)
                     end
        | _ => (Err AttributeError, j)
        end
      else if where_ =?s "url" then
        match v with
        | VDict d => import_keys r (j ++ map (fun kv => (fst kv, SUrl (snd kv))) d)
        | _ => (Err AttributeError, j)
        end
      else import_keys r j
  end.
(** service_context.py 120-192: the keys of a new context; [base] is the jar OidcContext
    makes from the configuration (library code).  Line 189-192: 'keys', else 'key_conf'. *)
Definition add_secret (secret : string) (j : jar) : jar := if secret =?s "" then j else j ++ [("", SSecret secret)].
Definition key_conf (cnf : dict val) : val :=
  match dget "keys" cnf with Some v => v | None => match dget "key_conf" cnf with Some v => v | None => VNone end end.
Definition new_context_keys (base : jar) (cnf : dict val) : res jar :=
  let j := add_secret (str_of (dget "client_secret" cnf)) base in
  match key_conf cnf with
  | VDict [] => Ok j
  | VDict spec => match import_keys spec j with (Ok _, j1) => Ok j1 | (Err e, _) => Err e end
  | v => if truthy v then Err AttributeError else Ok j
  end.
(** KeyJar.load(dump) of cryptojwt: an owner in the dump gets the dumped keys instead of its
    own (tests/test_20_rp_handler_oidc.py 265-290 and 318-331 count on it: a client with a
    secret of a handler with two keys has two keys).  Whether the other owners stay is left
    open: [keep]. *)
Definition jar_load (keep : bool) (dump j : jar) : jar :=
  (if keep then filter (fun e => negb (is_owner (fst e) dump)) j else []) ++ dump.
(** rp_handler.py 169-186 *)
Definition init_client_keys (keep : bool) (handlers base : jar) (cnf : dict val) : res jar :=
  let! j := new_context_keys base cnf in Ok (jar_load keep handlers j).
(** rp_handler.py 337-353 with oidc/registration.py 272-289: the keys of a client after the
    set-up, started with the jar [j].  A registration changes the jar only if it gives the
    client an identity; the answer is then kept in registration_response (C68_registration). *)
Definition registered_keys (c1 c2 : ctx) (j : jar) : jar :=
  if (client_id c1 =?s "") && negb (client_id c2 =?s "")
  then r_keys (snd (adopt_registration (registration_response c2) (mkr c1 (VInt 0) None j)))
  else j.
Definition setup_keys (W : env) (H : hconf) (beh : dict val) (t : temp) (j : jar) : jar :=
  match do_provider_info W (mkp (cl_ctx (tm_client t)) (tm_eps t) j) with
  | (Err _, p) => p_keys p
  | (Ok _, p) =>
      let args := filter (fun kv => dhas (fst kv) registration_params) beh in
      registered_keys (p_ctx p)
        (snd (load_registration_response W (tm_client t) (hc_sha H) (hc_seed H) args (p_ctx p))) (p_keys p)
  end.

(** ** what the handler publishes, rp_handler.py 53-69 *)
(** [default] is what init_key_jar makes (library code); the exported keys are the sources
    of the handler's own keys *)
Record handler_keys := mkhk { hk_jar : jar; hk_jwks_uri : string; hk_jwks : option jar }.
Definition handler_init (default : jar) (base_url : string)
  (keyjar : option jar) (jwks_path : option string) : handler_keys :=
  let j := match keyjar with
           | None => default ++ map (fun s => (base_url, s)) (keys_of "" default)
           | Some j => j
           end in
  let path := match keyjar, jwks_path with
              | None, None => "static/jwks.json"
              | _, Some p => p
              | _, None => ""
              end in
  if path =?s "" then mkhk j "" (Some (filter (fun e => fst e =?s "") j))
  else mkhk j (add_path base_url path) None.
