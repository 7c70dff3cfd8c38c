(** Specification for C68: where the keys of a client come from. *)
From Verif Require Import Base Json Msg M_State M_Ctx M_ClientAuth M_Provider.

(** keys a provider publishes about itself *)
Definition publishes (resp : dict val) (s : ksrc) : Prop :=
  (exists u, dget "jwks_uri" resp = Some u /\ s = SUrl u) \/
  (exists w, dget "jwks_uri" resp = None /\ dget "jwks" resp = Some w /\ s = SJwks w).
(** keys the administrator lists with the provider's information: by URL for any issuer, in
    files for the provider itself *)
Definition listed (pi : dict val) (iss o : string) (s : ksrc) : Prop :=
  exists specs typ spec name v, dget "keys" pi = Some (VDict specs) /\ In (typ, VDict spec) specs /\ In (name, v) spec /\
    ((typ = "url" /\ o = name /\ s = SUrl v) \/
     (typ = "file" /\ o = iss /\ ((name = "jwks" /\ s = SFile v) \/ (name = "rsa" /\ s = SPem v)))).
(** keys listed in the 'keys' of a client's own configuration *)
Definition imported (spec : dict val) (o : string) (s : ksrc) : Prop :=
  exists d name v, In (name, v) d /\
    ((In ("file", VDict d) spec /\ name = "rsa" /\ o = "" /\ exists l f, v = VList l /\ In f l /\ s = SPem f) \/
     (In ("url", VDict d) spec /\ o = name /\ s = SUrl v)).
(** a spelling of an issuer: with or without a slash at the end *)
Definition spelling (i iss : string) : Prop := i = iss \/ (i ++ "/")%string = iss \/ i = (iss ++ "/")%string.
(** the issuer a client is to talk to *)
Definition target_issuer (c : ctx) : string :=
  match dget "srv_discovery_url" (config c) with Some (VStr u) => u | _ => issuer c end.
(** the origin of a key of a client set up from the jar [j]; [c] is its context before the
    set-up, [c1] with the provider's information and [c2] afterwards *)
Inductive origin (c c1 c2 : ctx) (j : jar) : string -> ksrc -> Prop :=
| or_had o s : In (o, s) j -> origin c c1 c2 j o s
| or_published s : provider_info c = [] -> publishes (provider_info c1) s -> spelling (issuer c1) (target_issuer c) ->
    origin c c1 c2 j (issuer c1) s
| or_listed o s : provider_info c <> [] -> listed (provider_info c) (issuer c) o s -> origin c c1 c2 j o s
| or_own s : client_id c = "" -> client_id c2 <> "" -> origin c c1 c2 j "" s -> origin c c1 c2 j (client_id c2) s
| or_secret o x : client_id c = "" -> client_id c2 <> "" -> x <> "" -> client_secret c2 = x -> o = "" \/ o = client_id c2 ->
    origin c c1 c2 j o (SSecret x).
