(** * Specification vocabulary: slot processing *)
From Verif Require Import Base Types Ctx Env Epoch Transition SpecCommon.

(** what happens while slots are processed *)
Inductive event : Type :=
| EvSlot (k : N)      (** per-slot processing, run while the slot counter is [k] *)
| EvEpoch (e : N)     (** epoch processing, run while the counter is in epoch [e] *)
| EvTick (k : N).     (** the slot counter becomes [k] *)

(** the events that advancing from slot [a] to slot [b] consists of, in order *)
Definition expected_events (c : Ctx) (a b : N) : list event :=
  flat_map (fun k => [EvSlot k] ++ (if (k + 1) mod SLOTS_PER_EPOCH c =? 0 then [EvEpoch (k / SLOTS_PER_EPOCH c)] else []) ++ [EvTick (k + 1)])
           (seqN a (N.to_nat (b - a))).

Section Runs.
Variables (E : Env) (f : Fork).
(** a successful execution with its events *)
Inductive slot_run : BeaconState -> list event -> BeaconState -> Prop :=
| run_done s : slot_run s [] s
| run_slot s s1 tr s' : process_slot E f s = (Ok tt, s1) -> slot_run s1 tr s' -> slot_run s (EvSlot (slot s) :: tr) s'
| run_epoch s s1 tr s' : process_epoch E f s = (Ok tt, s1) -> slot_run s1 tr s' -> slot_run s (EvEpoch (epoch_of E s) :: tr) s'
| run_tick s tr s' : slot_run (set_slot (slot s + 1) s) tr s' -> slot_run s (EvTick (slot s + 1) :: tr) s'.
End Runs.

(** the header whose root is recorded for a slot: the latest block's, completed with the root of the state [sr] when it has none *)
Definition completed_header (h : BeaconBlockHeader) (sr : Root) : BeaconBlockHeader :=
  if bytes_eqb (bh_state_root h) zero32 then mkHeader (bh_slot h) (bh_proposer_index h) (bh_parent_root h) sr (bh_body_root h) else h.
(** state root and block root of the slot of [s] *)
Definition roots_of_slot (E : Env) (f : Fork) (s : BeaconState) (sr br : Root) : Prop :=
  htr E (OState f s) = Some sr /\ htr E (OHeader (completed_header (latest_block_header s) sr)) = Some br.
