(** * Specification: what a text denotes *)
From Coq Require Import Ascii String.
From Verif Require Import Base.

(** The value of a hexadecimal digit: its place in the digit table, in either case. *)
Definition codes (s : string) : list N := map N_of_ascii (list_ascii_of_string s).
Definition hex_digit_is (c v : N) : Prop :=
  nth_error (codes "0123456789abcdef") (N.to_nat v) = Some c \/ nth_error (codes "0123456789ABCDEF") (N.to_nat v) = Some c.
(** [hex_denotes t b]: the text [t] writes the byte string [b], two digits per byte, most significant first *)
Inductive hex_denotes : list N -> list N -> Prop :=
| hex_nil : hex_denotes [] []
| hex_cons h l x y t b : hex_digit_is h x -> hex_digit_is l y -> hex_denotes t b -> hex_denotes (h :: l :: t) (16 * x + y :: b).
(** an optional "0x" in front *)
Inductive opt_0x : list N -> list N -> Prop :=
| with_0x t : opt_0x (codes "0x" ++ t) t
| without_0x t : (forall r, t <> codes "0x" ++ r) -> opt_0x t t.
(** two characters that differ at most in case *)
Definition same_letter (a b : N) : Prop := a = b \/ (65 <= a <= 90 /\ b = a + 32) \/ (65 <= b <= 90 /\ a = b + 32).

(** [dec_denotes t n]: [t] is a non-empty string of decimal digits with value [n] *)
Inductive dec_denotes : list N -> N -> Prop :=
| dec_one d : d < 10 -> dec_denotes [48 + d] d
| dec_more t n d : dec_denotes t n -> d < 10 -> dec_denotes (t ++ [48 + d]) (10 * n + d).
