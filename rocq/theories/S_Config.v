(** Specification vocabulary for configured services. *)
From Verif Require Import Base Json Msg M_State M_Ctx M_Codec M_ClientAuth M_Service M_Token M_Handler M_Config.

(** the first of the given texts that is not empty *)
Fixpoint first_set (l : list string) : string :=
  match l with [] => "" | a :: r => if a =?s "" then first_set r else a end.
(** the text configured under [p], "" if there is none *)
Definition setting (conf : dict val) (p : string) : string := match dget p conf with Some (VStr v) => v | _ => "" end.
(** a setting is absent, or a text that is not empty *)
Definition proper_setting (conf : dict val) (p : string) : Prop :=
  dget p conf = None \/ exists v, dget p conf = Some (VStr v) /\ v <> "".
(** the value given for a parameter, in lower case or else in upper case; values that Python
    counts as false (None, False, 0, empty) are not given *)
Definition given (conf : dict val) (lower upper : string) : option val :=
  match dget lower conf, dget upper conf with
  | Some x, Some y => if truthy x then Some x else if truthy y then Some y else None
  | Some x, None | None, Some x => if truthy x then Some x else None
  | None, None => None
  end.
(** [v] is the value given; a false value if none is *)
Definition is_given (v : val) (o : option val) : Prop := match o with Some x => v = x | None => truthy v = false end.
