(** Specification of the byte encodings: RFC 4648 (base64, base64url) at the level of
    bits, and percent encoding of forms, independent of M_Codec.v. *)
From Verif Require Import Base.

Definition rfc4648 (url : bool) : string :=
  if url then "ABCDEFGHIJKLMNOPQRSTUVWXYZabcdefghijklmnopqrstuvwxyz0123456789-_"
  else "ABCDEFGHIJKLMNOPQRSTUVWXYZabcdefghijklmnopqrstuvwxyz0123456789+/".
(** most significant bit first *)
Definition byte_bits (c : ascii) : list bool :=
  match c with Ascii b0 b1 b2 b3 b4 b5 b6 b7 => [b7; b6; b5; b4; b3; b2; b1; b0] end.
Definition number (bits : list bool) : nat := fold_left (fun n (b : bool) => 2 * n + (if b then 1 else 0)) bits 0.
(** the character that stands for six bits *)
Definition sextet (url : bool) (c : ascii) (bits : list bool) : Prop :=
  List.length bits = 6 /\ String.get (number bits) (rfc4648 url) = Some c.
(** [txt] is the RFC 4648 encoding of [s] followed by [pads]: the bits of the characters
    are the bits of the bytes, filled up with zeros to a multiple of six *)
Definition base64_of (url : bool) (s txt : string) : Prop :=
  exists groups fill, Forall2 (sextet url) (la txt) groups /\
    concat groups = (flat_map byte_bits (la s) ++ fill)%list /\
    Forall (fun b => b = false) fill /\ List.length fill < 6.

(** percent encoding of one byte in a form *)
Definition upper_hex : string := "0123456789ABCDEF".
Inductive form_quoted : ascii -> string -> Prop :=
| fq_plain c : In c (la "ABCDEFGHIJKLMNOPQRSTUVWXYZabcdefghijklmnopqrstuvwxyz0123456789_.-~") -> form_quoted c (String c "")
| fq_space : form_quoted " "%char "+"
| fq_percent c h l i j : ~ In c (la "ABCDEFGHIJKLMNOPQRSTUVWXYZabcdefghijklmnopqrstuvwxyz0123456789_.-~ ") ->
    String.get i upper_hex = Some h -> String.get j upper_hex = Some l -> nat_of_ascii c = 16 * i + j ->
    form_quoted c (String "%" (String h (String l ""))).
