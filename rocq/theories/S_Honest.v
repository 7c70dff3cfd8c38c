(** Specification for C75: an honest provider and what it answers. *)
From Verif Require Import Base Json Msg M_State M_Ctx M_Codec M_ClientAuth M_Service M_Token M_Handler S_Token S_Flow S_Trace S_Traffic.

(** an answer with status 200 and a JSON object *)
Definition json_answer (d : dict val) : http_resp := mkresp 200 (Some "application/json") (json_dumps (VDict d)).
(** the authorization response of the code flow: state and code, nothing verified beforehand *)
Definition code_response (k code : string) (resp : dict val) : Prop :=
  uniq resp /\ dget "state" resp = Some (VStr k) /\ dget "code" resp = Some (VStr code) /\ code <> "" /\
  dget "error" resp = None /\ dget (verified "id_token") resp = None /\ dget "expires_in" resp = None.
(** verification of a message of this kind accepts [m] and makes it [m'] *)
Definition verifies (W : env) (kind : string) (m m' : msg) : Prop := forall c, e_vrf W kind c m = Ok m'.
(** the request proves that it comes from the client: by HTTP Basic or in the form *)
Definition proves_client (id secret txt : string) (h : headers) : Prop :=
  dget "Authorization" h = Some ("Basic " ++ basic_token id secret)%string \/
  (form_has txt "client_id" id /\ form_has txt "client_secret" secret).
(** the form redeems [code], given out for a request with redirect URI [ru] and, with PKCE,
    the code challenge [ch] made by [hash] *)
Definition redeems (id secret code ru : string) (pkce : option (string -> string * string)) (b : option body) (h : headers) : Prop :=
  exists txt, b = Some (BText txt) /\ form_has txt "grant_type" "authorization_code" /\ form_has txt "code" code /\
    form_has txt "redirect_uri" ru /\ proves_client id secret txt h /\
    match pkce with None => True | Some f => exists v, form_has txt "code_verifier" v /\ fst (f v) = snd (f v) end.
(** the PKCE check of a login: the transformed verifier against the challenge of the request *)
Definition pkce_check (hash : hash_oracle) (ch m v : string) : string * string := (b64e (hash m v), ch).

(** the token endpoint of the client's provider answers such a request with [tm] *)
Definition token_endpoint_honest (W : env) (c : ctx) (code ru : string) (pkce : option (string -> string * string)) (tm : dict val) : Prop :=
  exists ep, dget "token_endpoint" (provider_info c) = Some (VStr ep) /\
    forall b h, redeems (client_id c) (client_secret c) code ru pkce b h -> e_http W ep "POST" b h = Ok (json_answer tm).
(** the UserInfo endpoint answers a request with the access token with [um] *)
Definition userinfo_endpoint_honest (W : env) (c : ctx) (tok : string) (um : dict val) : Prop :=
  exists ep, dget "userinfo_endpoint" (provider_info c) = Some (VStr ep) /\
    forall u b h, same_address u ep -> dget "Authorization" h = Some ("Bearer " ++ tok)%string ->
      e_http W u "GET" b h = Ok (json_answer um).
(** a token response with access token [tok] *)
Definition token_answer (tok : string) (tm : dict val) : Prop :=
  uniq tm /\ dget "access_token" tm = Some (VStr tok) /\ tok <> "" /\ dget "error" tm = None /\
  match dget "expires_in" tm with None => True | Some v => exists z, v = VInt z end.
(** the claims of an ID Token for the user [sub], with the nonce [n] *)
Definition id_claims (n sub : string) (idt : dict val) : Prop :=
  dget "nonce" idt = Some (VStr n) /\ dget "sub" idt = Some (VStr sub) /\
  (dget "sid" idt = None \/ exists s, dget "sid" idt = Some (VStr s)).
(** user info about [sub] without distributed or aggregated claims *)
Definition about_user (sub : string) (um : dict val) : Prop :=
  uniq um /\ dget "sub" um = Some (VStr sub) /\ sub <> "" /\ dget "error" um = None /\ dget "_claim_sources" um = None.
(** the client authenticates with its secret *)
Definition uses_secret (c : ctx) : Prop :=
  client_id c <> "" /\ client_secret c <> "" /\
  (dget "token_endpoint_auth_method" (behaviour c) = None \/
   dget "token_endpoint_auth_method" (behaviour c) = Some (VStr "client_secret_basic") \/
   dget "token_endpoint_auth_method" (behaviour c) = Some (VStr "client_secret_post")).
(** the call neither begins a login with the nonce [n] nor forgets a login *)
Definition no_other_login (c : ctx) (n : string) (o : call) : Prop :=
  match o with CInit W reqs _ => ~ uses_nonce c W reqs n | CClear _ => False | _ => True end.
(** the user info that is shown has what the provider answered *)
Definition shows (um info : dict val) : Prop :=
  forall p v, dget p um = Some v -> v <> VStr "" -> v <> VList [VStr ""] -> dget p info = Some v.
