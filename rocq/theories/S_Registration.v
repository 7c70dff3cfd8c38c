(** Specification vocabulary for client registration (C30, C31, C32, C45). *)
From Verif Require Import Base Json Msg M_State M_Ctx.
From Coq Require Import Permutation.

(** the words of a response type *)
Definition words (rt : string) : list string := split_on sp rt.
(** the response types of OpenID Connect: one or more of code, id_token and token, none of
    them twice, token not on its own *)
Definition standard (ws : list string) : Prop :=
  ws <> [] /\ ws <> ["token"] /\ NoDup ws /\ forall w, In w ws -> In w ["code"; "id_token"; "token"].
(** the grant types a response type needs (OpenID Connect Registration, section 2) *)
Definition needs (ws : list string) (g : string) : Prop :=
  (g = "authorization_code" /\ In "code" ws) \/ (g = "implicit" /\ (In "id_token" ws \/ In "token" ws)).

(** a configured attribute, in the configuration or in its client preferences, has value
    [v] or is a list with [v] in it *)
Definition has_value (d : dict val) (attr : string) (v : val) : Prop :=
  dget attr d = Some v \/ exists l, dget attr d = Some (VList l) /\ In v l.
Definition configured (conf : dict val) (attr : string) (v : val) : Prop :=
  has_value conf attr v \/ exists d, dget "client_preferences" conf = Some (VDict d) /\ has_value d attr v.
