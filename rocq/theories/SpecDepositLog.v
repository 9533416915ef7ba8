(** * Specification vocabulary: the deposits credited along a chain and the log of the deposit contract *)
From Verif Require Import Base Types Ctx Env Block Transition Upgrade SpecCommon SpecFlow SpecFinality SpecTrees.

Section Log.
Variable E : Env.
(** chains of slots, accepted blocks and upgrades: the states, newest first, and the deposits of the blocks, oldest first *)
Inductive paid (p0 : Fork * BeaconState) : list (Fork * BeaconState) -> list Deposit -> Prop :=
| paid_start : paid p0 [p0] []
| paid_slot f s t w l : paid p0 ((f, s) :: w) l -> slot s + 1 < 2 ^ 64 -> process_slots E f (slot s + 1) s = (Ok tt, t) ->
    paid p0 ((f, t) :: (f, s) :: w) l
| paid_block f b s t w l : paid p0 ((f, s) :: w) l -> process_block E f b s = (Ok tt, t) ->
    paid p0 ((f, t) :: (f, s) :: w) (l ++ bb_deposits (bk_body b))
| paid_upgrade f g s t w l : paid p0 ((f, s) :: w) l -> chain_call E (f, s) (g, t) -> f <> g -> paid p0 ((g, t) :: (f, s) :: w) l.

(** [e] describes the contract after the first [e1_deposit_count e] deposits of its log: its root is that of the tree of depth 32 over their hash
    tree roots, with the number mixed in *)
Definition snapshot (log : list DepositData) (e : Eth1Data) : Prop :=
  exists leaves, lenN leaves = e1_deposit_count e /\ map Some leaves = map (fun d => htr E (ODepositData d)) (firstN (e1_deposit_count e) log)
    /\ e1_deposit_root e = root_of (hash E) (list_tree (2 ^ 32) (map Leaf leaves)).
(** the ways a dishonest proof can succeed: two inputs with the same hash, or a deposit whose hash tree root is zero, like an empty leaf *)
Definition hash_broken : Prop := (exists x y, collision (hash E) x y) \/ exists d, htr E (ODepositData d) = Some zero32.
(** the hash tree root of a deposit *)
Definition deposit_root (d : Deposit) : option Root := htr E (ODepositData (dep_data d)).
End Log.
