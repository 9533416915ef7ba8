(** * Specification: Merkle trees of containers and lists

    Binary trees with chunks at the leaves; no model function is used here. *)
From Coq Require Import String.
From Verif Require Import Base.

Inductive tree : Type := Leaf (chunk : bytes) | Node (l r : tree).
Fixpoint root_of (H : bytes -> bytes) (t : tree) : bytes :=
  match t with Leaf c => c | Node l r => H (root_of H l ++ root_of H r) end.
(** the subtree [d] levels below the top, number [i] from the left *)
Fixpoint below (t : tree) (d : nat) (i : N) {struct d} : option tree :=
  match d, t with
  | O, _ => Some t
  | S d', Node l r => below (if N.testbit i (N.of_nat d') then r else l) d' i
  | S _, Leaf _ => None
  end.
(** the subtree at a generalized index: 1 is the top, [2 g] and [2 g + 1] are the children of [g] *)
Definition subtree_at (t : tree) (g : N) : option tree := below t (N.to_nat (N.log2 g)) (g mod 2 ^ N.log2 g).
(** the roots beside the path, lowest first *)
Fixpoint siblings (H : bytes -> bytes) (t : tree) (d : nat) (i : N) {struct d} : list bytes :=
  match d, t with
  | S d', Node l r => if N.testbit i (N.of_nat d') then siblings H r d' i ++ [root_of H l] else siblings H l d' i ++ [root_of H r]
  | _, _ => []
  end.
(** a balanced tree of depth [d] over the given subtrees, filled up with zero chunks *)
Fixpoint balanced (d : nat) (l : list tree) : tree :=
  match d with
  | O => match l with x :: _ => x | [] => Leaf zero32 end
  | S d' => Node (balanced d' (firstn (Nat.pow 2 d') l)) (balanced d' (skipn (Nat.pow 2 d') l))
  end.
Definition container (names : list string) (field : string -> tree) : tree :=
  balanced (N.to_nat (N.log2_up (lenN names))) (map field names).
(** a list: the elements padded to the limit, beside the length *)
Definition list_tree (limit : N) (elements : list tree) : tree :=
  Node (balanced (N.to_nat (N.log2_up limit)) elements) (Leaf (to_le 32 (lenN elements))).
Fixpoint chunks_wf (t : tree) : Prop := match t with Leaf c => lenN c = 32 | Node l r => chunks_wf l /\ chunks_wf r end.
