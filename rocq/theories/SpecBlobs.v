(** * Specification: blob contents *)
From Verif Require Import Base.

(** the big-endian value of a byte string *)
Definition be_value (l : list N) : N := fold_left (fun a b => 256 * a + b) l 0.
(** the prime order of the BLS12-381 scalar field, in hexadecimal *)
Definition FIELD_ORDER : N := 0x73eda753299d7d483339d80809a1d80553bda402fffe5bfeffffffff00000001.
(** a blob: [elems] words of 32 bytes, each the big-endian encoding of a canonical field element *)
Definition canonical_blob (elems : N) (blob : list N) : Prop :=
  exists words, blob = concat words /\ lenN words = elems
    /\ Forall (fun w => lenN w = 32 /\ Forall (fun x => x < 256) w /\ be_value w < FIELD_ORDER) words.
