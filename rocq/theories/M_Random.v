(** Model of the random values of the package: util.py 21-25 and 74-94 (rndstr, unreserved)
    on top of CPython's random module.
    util.py 22-25 says [import SystemRandom as rnd], and on ImportError [import random as rnd].
    SystemRandom is a class of the module random and not a module, so that the import fails
    on every system and the generator is that of the module random: the Mersenne Twister
    MT19937 (CPython, Modules/_randommodule.c). *)
From Verif Require Import Base M_Token.

(** ** the generator *)
Definition UPPER_MASK : N := 2147483648.   (* 0x80000000 *)
Definition LOWER_MASK : N := 2147483647.   (* 0x7fffffff *)
Definition MATRIX_A : N := 2567483615.     (* 0x9908b0df *)
(** the next word from the words [a], [b] and [m] that lie 624, 623 and 227 places back *)
Definition twist (a b m : N) : N :=
  let y := N.lor (N.land a UPPER_MASK) (N.land b LOWER_MASK) in
  N.lxor (N.lxor m (N.shiftr y 1)) (if N.odd y then MATRIX_A else 0).
(** what is given out for a word *)
Definition temper (x : N) : N :=
  let y := N.lxor x (N.shiftr x 11) in
  let y := N.lxor y (N.land (N.shiftl y 7) 2636928640) in     (* 0x9d2c5680 *)
  let y := N.lxor y (N.land (N.shiftl y 15) 4022730752) in    (* 0xefc60000 *)
  N.lxor y (N.shiftr y 18).
(** The state: the next 624 words before tempering.  CPython computes them in blocks of 624;
    here word by word, which gives the same sequence. *)
Definition gen := list N.
Definition next_word (g : gen) : N * gen :=
  (temper (nth 0 g 0%N), tl g ++ [twist (nth 0 g 0%N) (nth 1 g 0%N) (nth 397 g 0%N)]).
(** the next [n] words and the state after them *)
Fixpoint next_words (n : nat) (g : gen) : list N * gen :=
  match n with
  | 0 => ([], g)
  | S m => let (w, g1) := next_word g in let (ws, g2) := next_words m g1 in (w :: ws, g2)
  end.

(** ** random.choice over an alphabet of 62 characters: getrandbits(6), repeated until it is
    less than 62; getrandbits(6) is the upper 6 bits of the next word.  The loop has no bound;
    [fuel] bounds the number of words used, [None]: it was not enough. *)
Fixpoint choices (fuel : nat) (size : nat) (g : gen) : option (string * gen) :=
  match size with
  | 0 => Some ("", g)
  | S n =>
      match fuel with
      | 0 => None
      | S f =>
          let (w, g1) := next_word g in
          let r := N.to_nat (N.shiftr w 26) in
          if Nat.ltb r 62 then
            match choices f n g1 with
            | Some (s, g2) => Some (String (nth r (la BASECHR) "a"%char) s, g2)
            | None => None
            end
          else choices f (S n) g1
      end
  end.
(** util.py 74-83 and 86-94: both alphabets are ascii_letters + digits (defaults.py 73) *)
Definition rndstr (fuel size : nat) (g : gen) : option (string * gen) := choices fuel size g.
Definition unreserved_str (fuel size : nat) (g : gen) : option (string * gen) := choices fuel size g.
