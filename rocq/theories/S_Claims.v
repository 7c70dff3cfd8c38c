(** Specification for C53: claims that the user info leaves to other sources.
    A user info answer has two members for this (OpenID Connect Core 5.6.2): _claim_names
    says for a claim which source provides it, _claim_sources describes the sources. *)
From Verif Require Import Base Json Msg M_State M_Ctx M_ClientAuth M_Service M_Token M_Handler M_Claims S_Flow.

(** the claim [n] is left to the source [s] *)
Definition left_to (ui : msg) (n s : string) : Prop :=
  exists names, dget "_claim_names" ui = Some (VDict names) /\ dget n names = Some (VStr s).
(** the description of a source *)
Definition described (ui : msg) (s : string) (spec : dict val) : Prop :=
  exists sources, dget "_claim_sources" ui = Some (VDict sources) /\ dget s sources = Some (VDict spec).
(** no key twice, and no source is asked for the assignment itself *)
Definition proper_claims (ui : msg) : Prop :=
  (forall names, dget "_claim_names" ui = Some (VDict names) -> uniq names /\ ~ In "_claim_names" (dkeys names)) /\
  (forall sources, dget "_claim_sources" ui = Some (VDict sources) -> uniq sources).

(** *** aggregated: the source is a signed JWT in the answer *)
(** the source [s] provides the claims [d] by value *)
Definition aggregates (agg : agg_oracle) (ui : msg) (s : string) (d : dict val) : Prop :=
  exists spec j, described ui s spec /\ dget "JWT" spec = Some (VStr j) /\ agg j = Ok (Some d).

(** *** distributed: the source is to be asked *)
(** the headers of the request to a source with description [spec] and endpoint [ep]: its
    own token, else the one that the application gives for the endpoint, else none *)
Definition source_wire (cb : option (string -> res val)) (spec : dict val) (ep : string) (h : headers) : Prop :=
  match dget "access_token" spec with
  | Some t => exists tok, t = VStr tok /\ h = [("Authorization", ("Bearer " ++ tok)%string)]
  | None => match cb with
            | Some f => exists tok, f ep = Ok (VStr tok) /\ h = [("Authorization", ("Bearer " ++ tok)%string)]
            | None => h = []
            end
  end.
(** the sources that are to be asked, in order, with their descriptions *)
Fixpoint askable (sources : list (string * val)) : list (string * dict val * string) :=
  match sources with
  | [] => []
  | (s, VDict spec) :: r => match dget "endpoint" spec with Some (VStr ep) => (s, spec, ep) :: askable r | _ => askable r end
  | _ :: r => askable r
  end.
(** a request goes to the endpoint of a source, with that source's token *)
Definition asks (cb : option (string -> res val)) (r : claim_request) (a : string * dict val * string) : Prop :=
  let '(url, h) := r in let '(_, spec, ep) := a in url = ep /\ source_wire cb spec ep h.
Definition sources_of (ui : msg) : list (string * val) := match dget "_claim_sources" ui with Some (VDict l) => l | _ => [] end.
(** the source [s] answers the request for its claims with [d] *)
Definition answers_with (http : http_client) (cb : option (string -> res val)) (ui : msg) (s : string) (d : dict val) : Prop :=
  exists spec ep h r, described ui s spec /\ dget "endpoint" spec = Some (VStr ep) /\ source_wire cb spec ep h /\
    http ep "GET" None h = Ok r /\ h_status r = 200%Z /\ json_loads (h_text r) = Some (VDict d).
