(** Specification vocabulary for logins with the plain OAuth2 services. *)
From Verif Require Import Base Json Msg M_State S_State M_Ctx M_Codec M_Authz M_ClientAuth M_Service M_Token M_Handler M_OAuth
  S_Token S_Handler S_Flow S_Trace.

(** the calls an application makes on an OAuth2 client *)
Inductive ocall :=
| OInit (W : env) (reqs : dict val) (beh : option (dict val))            (* init_authorization *)
| OFinalize (W : env) (iss : string) (resp : dict val) (collect : bool)  (* finalize *)
| OFinalizeAuth (W : env) (iss : string) (resp : dict val)               (* finalize_auth *)
| OTokens (W : env) (state : string)                                     (* get_tokens *)
| OUserInfo (W : env) (state token : string)                             (* get_user_info *)
| OClear (state : string).                                               (* clear_session *)
Definition run_ocall (p : provider) (cl : client) (o : ocall) (c : ctx) : ctx :=
  match o with
  | OInit W reqs beh => snd (oauth_init W cl reqs beh c)
  | OFinalize W iss resp collect => snd (oauth_finalize p W cl iss resp collect c)
  | OFinalizeAuth W iss resp => snd (oauth_finalize_auth W cl iss resp c)
  | OTokens W st => snd (oauth_tokens p W cl st c)
  | OUserInfo W st tok => snd (oauth_user_info p W cl st tok c)
  | OClear st => snd (on_db (remove_state st) c)
  end.
Definition run_ocalls (p : provider) (cl : client) (os : list ocall) (c : ctx) : ctx :=
  fold_left (fun c o => run_ocall p cl o c) os c.

(** the caller's behaviour arguments do not name a session *)
Definition no_state (beh : option (dict val)) : Prop := match beh with Some b => ~ In "state" (dkeys b) | None => True end.
(** session keys are as the library makes them *)
Definition ocall_ok (o : ocall) : Prop :=
  match o with
  | OInit W _ beh => rnd32 (e_state W) /\ no_state beh
  | OFinalize _ _ _ _ | OFinalizeAuth _ _ _ => True
  | OTokens _ st | OUserInfo _ st _ | OClear st => rnd32 st
  end.
(** the call does not begin a session with key [k] again and does not clear [k] *)
Definition oleaves (k : string) (o : ocall) : Prop :=
  match o with OInit W _ _ => e_state W <> k | OClear st => st <> k | _ => True end.

(** no answer of the provider has an ID Token or a subject *)
Definition nameless (W : env) : Prop :=
  (forall c m v, e_vrf W "authorization" c m = Ok v -> dget (verified "id_token") v = None) /\
  (forall c m v, e_vrf W "accesstoken" c m = Ok v -> dget (verified "id_token") v = None) /\
  (forall c m v, e_vrf W "userinfo" c m = Ok v -> dget "sub" v = None /\ dget "_claim_sources" v = None).

(** the user info request of a GitHub client: the access token is a parameter of the URL *)
Definition token_in_url (tok ep u m : string) (b : option body) (h : headers) : Prop :=
  u_base (urlsplit u) = u_base (urlsplit ep) /\ m = "GET" /\ b = None /\ h = [] /\ query_has u "access_token" tok.
