(** How a user agent reads a Set-Cookie header (RFC 6265, section 5.2). *)
From Verif Require Import Base.

Fixpoint no_leading_space (s : string) : string :=
  match s with String " " r => no_leading_space r | _ => s end.
(** name and value of a part; without '=' there is no value *)
Definition name_value (part : string) : string * option string :=
  match split1 "="%char part with Some (n, v) => (n, Some v) | None => (part, None) end.
(** the cookie and its attributes *)
Definition ua_reads (header : string) : (string * option string) * list (string * option string) :=
  match split_on ";"%char header with
  | first :: rest => (name_value first, map (fun p => name_value (no_leading_space p)) rest)
  | [] => (("", None), [])
  end.
(** text that can stand in an attribute *)
Definition attr_text (s : string) : Prop := char_in ";"%char s = false.
Definition one_line (s : string) : Prop := char_in "010"%char s = false /\ char_in "013"%char s = false.
