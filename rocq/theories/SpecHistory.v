(** * Specification vocabulary: histories of calls to the public interface

    A history is any sequence of calls on a state, each continued from the state the call left behind, whether the call
    succeeded, returned an error or panicked. *)
From Verif Require Import Base Types Ctx Env Executor Genesis.
From Coq Require Import Relations.

Section WithEnv.
Variable E : Env.

Inductive call : Fork * BeaconState -> Fork * BeaconState -> Prop :=
| call_transition f validate sb s r s' : state_transition E f validate sb s = (r, s') -> call (f, s) (f, s')
| call_block_in_slot f validate sb s r s' : state_transition_block_in_slot E f validate sb s = (r, s') -> call (f, s) (f, s')
| call_slots f target s r s' : process_slots E f target s = (r, s') -> call (f, s) (f, s')
| call_block f b s r s' : process_block E f b s = (r, s') -> call (f, s) (f, s')
| call_epoch f s r s' : process_epoch E f s = (r, s') -> call (f, s) (f, s')
| call_altair s s' : upgrade_to_altair E s = Ok s' -> call (Phase0, s) (Altair, s')
| call_bellatrix s s' : upgrade_to_bellatrix E s = Ok s' -> call (Altair, s) (Bellatrix, s')
| call_capella s s' : upgrade_to_capella E s = Ok s' -> call (Bellatrix, s) (Capella, s')
| call_deneb s s' : upgrade_to_deneb E s = Ok s' -> call (Capella, s) (Deneb, s')
| call_electra s s' : upgrade_to_electra E s = Ok s' -> call (Deneb, s) (Electra, s').

Definition history : Fork * BeaconState -> Fork * BeaconState -> Prop := clos_refl_trans _ call.
End WithEnv.
