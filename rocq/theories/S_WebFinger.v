(** Specification vocabulary for WebFinger discovery. *)
From Verif Require Import Base M_Codec.

(** no character that ends the network location of a URL, no tab, CR or LF *)
Definition ctl (c : ascii) : bool := let n := nat_of_ascii c in Nat.eqb n 9 || Nat.eqb n 10 || Nat.eqb n 13.
Definition free_of (bad s : string) : Prop := forall c, In c (la s) -> ~ In c (la bad) /\ ctl c = false.
Definition host_text (s : string) : Prop := free_of "/?#" s.
(** the WebFinger request of RFC 7033 / OpenID Connect Discovery 2.1 *)
Definition wf_request (host resource : string) : string :=
  ("https://" ++ host ++ "/.well-known/webfinger" ++
   "?rel=http%3A%2F%2Fopenid.net%2Fspecs%2Fconnect%2F1.0%2Fissuer&resource=" ++ quote_plus resource)%string.
(** an optional URL component with its separator *)
Definition opt (sep s : string) : string := if s =?s "" then "" else (sep ++ s)%string.
(** a path: empty or beginning with a slash *)
Definition path_text (s : string) : Prop := free_of "?#" s /\ (s = "" \/ exists r, s = ("/" ++ r)%string).
