(** * Specification vocabulary for shuffling and committees (independent of the model functions)

    Swap-or-not shuffle of the consensus specification (compute_shuffled_index), written over an arbitrary hash function
    with mathematical integers. *)
From Verif Require Import Base.

(** "the hash returns 32 bytes" *)
Definition hash_wf (H : bytes -> bytes) : Prop :=
  forall b, length (H b) = 32%nat /\ Forall (fun x => x < 256) (H b).

Section Spec.
Variable H : bytes -> bytes.

Definition spec_pivot (seed : bytes) (r n : N) : N := of_le (firstn 8 (H (seed ++ [r]))) mod n.
(** bit number [pos] of the round's bit string: bit [pos mod 8] of byte [pos mod 256 / 8] of the hash for block [pos / 256] *)
Definition spec_bit (seed : bytes) (r pos : N) : bool :=
  N.testbit (nth (N.to_nat (pos mod 256 / 8)) (H (seed ++ [r] ++ to_le 4 (pos / 256))) 0) (pos mod 8).
Definition spec_round (seed : bytes) (n r i : N) : N :=
  let flip := (spec_pivot seed r n + n - i) mod n in
  if spec_bit seed r (N.max i flip) then flip else i.
(** rounds 0, 1, ..., R-1 in this order *)
Fixpoint spec_rounds (seed : bytes) (n : N) (R : nat) (i : N) : N :=
  match R with
  | O => i
  | S k => spec_round seed n (N.of_nat k) (spec_rounds seed n k i)
  end.
Definition spec_shuffle (seed : bytes) (n R i : N) : N := spec_rounds seed n (N.to_nat R) i.
End Spec.
