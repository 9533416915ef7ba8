(** * Specification vocabulary: base 58 and peer identifiers *)
From Verif Require Import Base.
From Coq Require Import Ascii String.

(** the number written by digits in base [B], most significant first *)
Definition number (B : N) (l : list N) : N := fold_left (fun n d => n * B + d) l 0.
(** no leading zero *)
Definition plain (l : list N) : Prop := match l with 0 :: _ => False | _ => True end.
(** the digit of a character: its place in the alphabet *)
Definition base58_digit (c d : N) : Prop :=
  d < 58 /\ nthN (map N_of_ascii (list_ascii_of_string "123456789ABCDEFGHJKLMNPQRSTUVWXYZabcdefghijkmnopqrstuvwxyz")) d = Some c.
(** [s] is the base 58 text of [b]: one 1 for each leading zero byte, then the number of the remaining bytes in base 58 without leading zeros *)
Definition base58_text (b s : bytes) : Prop :=
  exists z rest digits, b = repeat 0 z ++ rest /\ plain rest /\ plain digits /\ number 256 rest = number 58 digits
    /\ Forall2 base58_digit s (repeat 0 z ++ digits).
Definition octets (b : bytes) : Prop := Forall (fun x => x < 256) b.
(** what a peer identifier is: the SHA-256 digest of a key, or a short key itself *)
Definition supported (code : N) (digest : bytes) : Prop :=
  octets digest /\ (code = 18 /\ lenN digest <= 64 \/ code = 0 /\ lenN digest <= 42).
