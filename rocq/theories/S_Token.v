(** Specification vocabulary for tokens and flows. *)
From Verif Require Import Base Json Msg M_State S_State M_Ctx M_ClientAuth M_Codec M_Service.

(** [o] replaces or removes item [t] of session [k] *)
Definition overwrites (o : op) (k t : string) : Prop :=
  match o with
  | Create rnd _ key => created_key rnd key = k
  | Store _ _ t' k' => k' = k /\ t' = t
  | Bind _ _ _ => False
  | Remove k' => k' = k
  end.

(** a form encoded text gives exactly one value for [p] *)
Definition form_has (txt p v : string) : Prop := dget p (parse_qs txt) = Some [v].
Definition form_lacks (txt p : string) : Prop := dget p (parse_qs txt) = None.

(** a response type as a set of words *)
Definition words_are (rt : list val) (ws : list string) : Prop :=
  (forall v, In v rt -> exists w, v = VStr w) /\ (forall w, In (VStr w) rt <-> In w ws).

(** every HTTP request that [run] can make from [c] satisfies [P]: what [run] does is
    the same for any two peers that agree on the requests satisfying [P] *)
Definition only_sends {A} (run : http_client -> M A) (c : ctx)
  (P : string -> string -> option body -> headers -> Prop) : Prop :=
  forall http1 http2, (forall u m b h, P u m b h -> http1 u m b h = http2 u m b h) -> run http1 c = run http2 c.
(** the token request on the wire *)
Definition token_wire (st code ru ep : string) (pk : string -> Prop) (u m : string) (b : option body) (h : headers) : Prop :=
  u = ep /\ m = "POST" /\ exists txt, b = Some (BText txt) /\
    form_has txt "grant_type" "authorization_code" /\ form_has txt "code" code /\ form_has txt "redirect_uri" ru /\
    form_has txt "state" st /\ pk txt.
