(** Model of how a client gets its services: service.py 596-650 (gather_constructors,
    init_services), the constructors of the service classes, entity.py 28-85 (Entity and its
    lookup functions), util.py 170-174 and 382-385 (importer, do_add_ons) and the add_support
    functions of the three add-ons. *)
From Verif Require Import Base Json M_ReqObj.

(** What a keyword argument of a service class may be: a value of the configuration, the
    client_get of client number [n], or the factory of authentication methods. *)
Inductive kwval := KVal (v : val) | KClient (n : nat) | KFactory (f : string).
(** A service class: the class attributes service_name and endpoint_name, the names its
    constructor accepts ([None]: any), and the functions it puts into pre_construct and
    post_construct itself. *)
Record sclass := mkclass {
  k_service_name : string;
  k_endpoint_name : string;
  k_accepts : option (list string);
  k_pre : list string;
  k_post : list string
}.
(** what a qualified name stands for *)
Inductive pyobj := PClass (k : sclass) | PFun (name : string).
(** importlib.import_module and getattr: module and attribute; may raise *)
Definition imports := string -> string -> res pyobj.
(** util.py 170-174 *)
Definition importer (I : imports) (name : string) : res pyobj := let! p := modsplit name in I (fst p) (snd p).

(** A service definition: the class or its qualified name (absent: [None]), its kwargs, and
    the functions to add.  kwargs is the dictionary object of the configuration, so it is
    given by its location: definitions may share it. *)
Inductive clsref := CName (q : string) | CObj (k : sclass).
Record sdef := mkdef {
  d_class : option clsref;
  d_kwargs : option nat;
  d_post : list (option string);   (* 'function' of each entry; absent 'post_functions': empty *)
  d_pre : list (option string)
}.
(** the kwargs dictionaries of the configuration, by location *)
Definition kheap := nat -> dict kwval.
Definition hput (l : nat) (d : dict kwval) (h : kheap) : kheap := fun j => if Nat.eqb j l then d else h j.

(** A service instance: its class, the client it asks, its authentication factory, its
    configuration, and its modifiers.  service.py 61-92. *)
Record inst := mkinst {
  i_class : sclass;
  i_client : nat;
  i_factory : string;
  i_conf : dict val;
  i_pre : list pyobj;
  i_post : list pyobj;
  i_headers : list string
}.
Definition fixed_args : list string := ["client_get"; "client_authn_factory"; "conf"].
(** calling the class with keyword arguments.  A configuration that is not a dictionary
    counts as empty (simplification). *)
Definition instantiate (k : sclass) (kw : dict kwval) : res inst :=
  if (match k_accepts k with
      | None => true
      | Some l => forallb (fun a => mem_str a (fixed_args ++ l)) (dkeys kw)
      end)
  then match dget "client_get" kw, dget "client_authn_factory" kw with
       | Some (KClient n), Some (KFactory f) =>
           Ok (mkinst k n f (match dget "conf" kw with Some (KVal (VDict d)) => d | _ => [] end)
                 (map PFun (k_pre k)) (map PFun (k_post k)) [])
       | _, _ => Err TypeError
       end
  else Err TypeError.

(** 596-609 *)
Fixpoint gather_constructors (I : imports) (methods : list (option string)) (construct : list pyobj) : res (list pyobj) :=
  match methods with
  | [] => Ok construct
  | None :: r => gather_constructors I r construct
  | Some f :: r => let! o := importer I f in gather_constructors I r (construct ++ [o])
  end.

(** 625-633: the arguments; a kwargs dictionary of the configuration is updated in place *)
Definition both (client : nat) (factory : string) (kw : dict kwval) : dict kwval :=
  dset "client_authn_factory" (KFactory factory) (dset "client_get" (KClient client) kw).
Definition arguments (client : nat) (factory : string) (d : sdef) (h : kheap) : dict kwval * kheap :=
  match d_kwargs d with
  | Some l => let kw := both client factory (h l) in (kw, hput l kw h)
  | None => (both client factory [], h)
  end.
(** 635-641; calling something that is not a service class is an AttributeError later on,
    here a TypeError (simplification) *)
Definition class_of (I : imports) (d : sdef) : res sclass :=
  match d_class d with
  | None => Err (KeyError "class")
  | Some (CObj k) => Ok k
  | Some (CName q) => let! o := importer I q in match o with PClass k => Ok k | PFun _ => Err TypeError end
  end.
(** 624-648 for one definition *)
Definition init_service (I : imports) (client : nat) (factory : string) (d : sdef) (kw : dict kwval) : res inst :=
  let! k := class_of I d in
  let! i := instantiate k kw in
  let! post := gather_constructors I (d_post d) (i_post i) in
  let! pre := gather_constructors I (d_pre d) (i_pre i) in
  Ok (mkinst (i_class i) (i_client i) (i_factory i) (i_conf i) pre post (i_headers i)).
Fixpoint init_from (I : imports) (client : nat) (factory : string) (defs : dict sdef) (srv : dict inst) (h : kheap)
  : res (dict inst) * kheap :=
  match defs with
  | [] => (Ok srv, h)
  | (_, d) :: r =>
      let (kw, h') := arguments client factory d h in
      match init_service I client factory d kw with
      | Err e => (Err e, h')
      | Ok i => init_from I client factory r (dset (k_service_name (i_class i)) i srv) h'
      end
  end.
(** 612-650 *)
Definition init_services (I : imports) (client : nat) (factory : string) (defs : dict sdef) (h : kheap)
  : res (dict inst) * kheap := init_from I client factory defs [] h.

(** entity.py 63-85 *)
Definition get_service (srv : dict inst) (name : string) : option inst := dget name srv.
Definition get_service_by_endpoint_name (srv : dict inst) (ep : string) : option inst :=
  option_map snd (find (fun ni => k_endpoint_name (i_class (snd ni)) =?s ep) srv).

(** ** add-ons *)
(** a client: its services and the add_on dictionary of its context *)
Record outfit := mkoutfit { o_srv : dict inst; o_add_on : dict val }.
Definition add_on := dict val -> outfit -> res outfit.
Definition with_pre (o : pyobj) (i : inst) : inst :=
  mkinst (i_class i) (i_client i) (i_factory i) (i_conf i) (i_pre i ++ [o]) (i_post i) (i_headers i).
Definition with_post (o : pyobj) (i : inst) : inst :=
  mkinst (i_class i) (i_client i) (i_factory i) (i_conf i) (i_pre i) (i_post i ++ [o]) (i_headers i).
Definition with_header (n : string) (i : inst) : inst :=
  mkinst (i_class i) (i_client i) (i_factory i) (i_conf i) (i_pre i) (i_post i) (i_headers i ++ [n]).
Definition dmap1 (n : string) (f : inst -> inst) (d : dict inst) : dict inst :=
  match dget n d with Some i => dset n (f i) d | None => d end.
(** the function's parameters: those without default must be given, no others may *)
Definition args_ok (required optional : list string) (kw : dict val) : bool :=
  forallb (fun a => dhas a kw) required && forallb (fun a => mem_str a (required ++ optional)) (dkeys kw).
(** oauth2/add_on/pkce.py 87-112 *)
Definition add_pkce (kw : dict val) (o : outfit) : res outfit :=
  if args_ok ["code_challenge_length"; "code_challenge_method"] [] kw then
    if dhas "authorization" (o_srv o) && dhas "accesstoken" (o_srv o) then
      Ok (mkoutfit
            (dmap1 "accesstoken" (fun i => with_post (PFun "add_code_verifier") (with_pre (PFun "put_state_in_post_args") i))
               (dmap1 "authorization" (with_pre (PFun "add_code_challenge")) (o_srv o)))
            (dset "pkce" (VDict [("code_challenge_length", match dget "code_challenge_length" kw with Some v => v | None => VNone end);
                                 ("code_challenge_method", match dget "code_challenge_method" kw with Some v => v | None => VNone end)])
               (o_add_on o)))
    else Ok o
  else Err TypeError.
(** oauth2/add_on/dpop.py 145-165 *)
Definition add_dpop (kw : dict val) (o : outfit) : res outfit :=
  if args_ok ["signing_algorithms"] [] kw then
    if dhas "accesstoken" (o_srv o) then
      Ok (mkoutfit (dmap1 "userinfo" (with_header "dpop_header") (dmap1 "accesstoken" (with_header "dpop_header") (o_srv o)))
            (dset "dpop" (VDict [("sign_algs", match dget "signing_algorithms" kw with Some v => v | None => VNone end)]) (o_add_on o)))
    else Err (KeyError "accesstoken")
  else Err TypeError.
(** oauth2/add_on/pushed_authorization.py 51-74; the HTTP client is left out of the entry
    (simplification) *)
Definition add_par (kw : dict val) (o : outfit) : res outfit :=
  if args_ok [] ["body_format"; "signing_algorithm"; "http_client"; "merge_rule"] kw then
    if dhas "authorization" (o_srv o) then
      Ok (mkoutfit (dmap1 "authorization" (with_post (PFun "push_authorization")) (o_srv o))
            (dset "pushed_authorization"
               (VDict [("body_format", match dget "body_format" kw with Some v => v | None => VStr "jws" end);
                       ("signing_algorithm", match dget "signing_algorithm" kw with Some v => v | None => VStr "RS256" end);
                       ("merge_rule", match dget "merge_rule" kw with Some v => v | None => VStr "strict" end)])
               (o_add_on o)))
    else Err (KeyError "authorization")
  else Err TypeError.
(** util.py 382-385: [of_name] is the function that the qualified name stands for *)
Fixpoint do_add_ons (of_name : string -> res add_on) (specs : dict (string * dict val)) (o : outfit) : res outfit :=
  match specs with
  | [] => Ok o
  | (_, (f, kw)) :: r => let! a := of_name f in let! o' := a kw o in do_add_ons of_name r o'
  end.

(** ** the classes of the package *)
(** oauth2/*.py, oidc/*.py and oauth2/client_credentials/*.py: class attributes and constructors *)
Definition classes : dict sclass :=
  [("oidcrp.oauth2.provider_info_discovery.ProviderInfoDiscovery", mkclass "provider_info" "" (Some []) [] []);
   ("oidcrp.oauth2.authorization.Authorization",
      mkclass "authorization" "authorization_endpoint" (Some []) ["pre_construct_pick_redirect_uri"; "set_state_parameter"] ["store_auth_request"]);
   ("oidcrp.oauth2.access_token.AccessToken", mkclass "accesstoken" "token_endpoint" (Some []) ["oauth_pre_construct"] []);
   ("oidcrp.oauth2.refresh_access_token.RefreshAccessToken", mkclass "refresh_token" "token_endpoint" (Some []) ["oauth_pre_construct"] []);
   ("oidcrp.oauth2.client_credentials.cc_access_token.CCAccessToken", mkclass "accesstoken" "token_endpoint" (Some []) [] []);
   ("oidcrp.oauth2.client_credentials.cc_refresh_access_token.CCRefreshAccessToken",
      mkclass "refresh_token" "token_endpoint" (Some []) ["cc_pre_construct"] ["cc_post_construct"]);
   ("oidcrp.oidc.provider_info_discovery.ProviderInfoDiscovery", mkclass "provider_info" "" (Some []) [] []);
   ("oidcrp.oidc.registration.Registration",
      mkclass "registration" "registration_endpoint" (Some [])
        ["add_client_behaviour_preference"; "add_callback_uris"; "add_jwks_uri_or_jwks"]
        ["oidc_post_construct"]);
   ("oidcrp.oidc.authorization.Authorization",
      mkclass "authorization" "authorization_endpoint" (Some []) ["set_state"; "pre_construct_pick_redirect_uri"; "oidc_pre_construct"] ["oidc_post_construct"]);
   ("oidcrp.oidc.access_token.AccessToken", mkclass "accesstoken" "token_endpoint" (Some []) ["oauth_pre_construct"] []);
   ("oidcrp.oidc.refresh_access_token.RefreshAccessToken", mkclass "refresh_token" "token_endpoint" (Some []) ["oauth_pre_construct"] []);
   ("oidcrp.oidc.userinfo.UserInfo", mkclass "userinfo" "userinfo_endpoint" (Some []) ["oidc_pre_construct"; "carry_state"] []);
   ("oidcrp.oidc.end_session.EndSession",
      mkclass "end_session" "end_session_endpoint" (Some []) ["get_id_token_hint"; "add_post_logout_redirect_uri"; "add_state"] []);
   ("oidcrp.oidc.webfinger.WebFinger", mkclass "webfinger" "" None [] []);
   ("oidcrp.oidc.read_registration.RegistrationRead", mkclass "registration_read" "" None [] []);
   ("oidcrp.oidc.check_session.CheckSession", mkclass "check_session" "" (Some []) ["oidc_pre_construct"] []);
   ("oidcrp.oidc.check_id.CheckID", mkclass "check_id" "" (Some []) ["oidc_pre_construct"] [])].
Definition package : imports :=
  fun m a => match dget (m ++ "." ++ a) classes with Some k => Ok (PClass k) | None => Err AttributeError end.
Definition plain_def (q : string) : sdef := mkdef (Some (CName q)) None [] [].
(** entity.py 12-25 and oidc/__init__.py 22-44 *)
Definition oauth2_default_services : dict sdef :=
  [("discovery", plain_def "oidcrp.oauth2.provider_info_discovery.ProviderInfoDiscovery");
   ("authorization", plain_def "oidcrp.oauth2.authorization.Authorization");
   ("access_token", plain_def "oidcrp.oauth2.access_token.AccessToken");
   ("refresh_access_token", plain_def "oidcrp.oauth2.refresh_access_token.RefreshAccessToken")].
Definition oidc_default_services : dict sdef :=
  [("discovery", plain_def "oidcrp.oidc.provider_info_discovery.ProviderInfoDiscovery");
   ("registration", plain_def "oidcrp.oidc.registration.Registration");
   ("authorization", plain_def "oidcrp.oidc.authorization.Authorization");
   ("access_token", plain_def "oidcrp.oidc.access_token.AccessToken");
   ("refresh_access_token", plain_def "oidcrp.oidc.refresh_access_token.RefreshAccessToken");
   ("userinfo", plain_def "oidcrp.oidc.userinfo.UserInfo");
   ("end_session", plain_def "oidcrp.oidc.end_session.EndSession")].
(** entity.py 46-50 and oidc/__init__.py 109: [services or DEFAULT_SERVICES] *)
Definition services_or (services default : dict sdef) : dict sdef := match services with [] => default | _ => services end.
(** oauth2/__init__.py 51-75: the services of a new client and its add-ons *)
Definition new_client (I : imports) (of_name : string -> res add_on) (default : dict sdef) (client : nat) (factory : string)
  (services : dict sdef) (specs : dict (string * dict val)) (h : kheap) : res outfit * kheap :=
  match init_services I client factory (services_or services default) h with
  | (Err e, h') => (Err e, h')
  | (Ok srv, h') => (do_add_ons of_name specs (mkoutfit srv []), h')
  end.
