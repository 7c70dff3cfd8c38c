(** Property theorems C25: byte encodings. *)
From Verif Require Import Base BaseP M_Codec S_Codec P_Codec.

Theorem C25_base64_roundtrip : forall url s, b64dec url (b64enc url s) = Some s.
Proof. exact b64_roundtrip. Qed.
Print Assumptions C25_base64_roundtrip.
Theorem C25_base64_injective : forall url s t, b64enc url s = b64enc url t -> s = t.
Proof. exact b64_inj. Qed.
Print Assumptions C25_base64_injective.
Theorem C25_base64_shape : forall url s, exists body p, b64enc url s = (body ++ p)%string /\
  all_chars (fun c => char_in c (rfc4648 url)) body = true /\ In p [""; "="; "=="] /\
  (String.length body + String.length p) mod 4 = 0.
Proof. exact b64_shape. Qed.
Print Assumptions C25_base64_shape.
Theorem C25_unpadded_base64url_roundtrip : forall s, b64d (b64e s) = Some s.
Proof. exact b64e_roundtrip. Qed.
Print Assumptions C25_unpadded_base64url_roundtrip.
Theorem C25_unpadded_base64url_alphabet : forall s, all_chars (fun c => char_in c (rfc4648 true)) (b64e s) = true.
Proof. exact b64e_alphabet. Qed.
Print Assumptions C25_unpadded_base64url_alphabet.
Theorem C25_quote_plus_roundtrip : forall s, unquote_plus (quote_plus s) = s.
Proof. exact quote_roundtrip. Qed.
Print Assumptions C25_quote_plus_roundtrip.
Theorem C25_quote_plus_alphabet : forall s,
  all_chars (fun c => (is_alnum c || char_in c "_.-~") || char_in c "%+") (quote_plus s) = true.
Proof. exact quote_chars. Qed.
Print Assumptions C25_quote_plus_alphabet.
Theorem C25_urlencode_roundtrip : forall l, Forall (fun kv => snd kv <> "") l -> parse_qsl (urlencode l) = l.
Proof. exact urlencode_roundtrip. Qed.
Print Assumptions C25_urlencode_roundtrip.

(** the bits are those of RFC 4648 *)
Theorem C25_base64_is_rfc4648 : forall url s, exists txt pads, b64enc url s = (txt ++ pads)%string /\ base64_of url s txt /\
  In pads [""; "="; "=="] /\ (String.length txt + String.length pads) mod 4 = 0.
Proof. exact b64_is_rfc4648. Qed.
Print Assumptions C25_base64_is_rfc4648.
Theorem C25_unpadded_base64url_is_rfc4648 : forall s, base64_of true s (b64e s).
Proof. exact b64e_is_rfc4648. Qed.
Print Assumptions C25_unpadded_base64url_is_rfc4648.
(** every byte is written as itself, as '+' or as % and two upper case hex digits *)
Theorem C25_quote_plus_is_form_quoting : forall s, exists l, Forall2 form_quoted (la s) l /\ quote_plus s = String.concat "" l.
Proof. exact quote_plus_is_form_quoted. Qed.
Print Assumptions C25_quote_plus_is_form_quoting.

(** known test vectors (tests, not proofs) *)
Example b64_vectors : b64enc false "Man" = "TWFu" /\ b64enc false "Ma" = "TWE=" /\ b64enc false "M" = "TQ==" /\
  b64enc true "a:~" = "YTp-" /\ b64enc false "a:~" = "YTp+" /\ b64e "M" = "TQ".
Proof. vm_compute. auto 6. Qed.
Example quote_vectors : quote_plus "a b&c=/é" = "a+b%26c%3D%2F%C3%A9" /\
  urlencode [("a", "1 2"); ("b", "&")] = "a=1+2&b=%26".
Proof. vm_compute. auto. Qed.
