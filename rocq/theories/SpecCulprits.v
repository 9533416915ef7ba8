(** * Specification vocabulary: the stake on record as slashed *)
From Verif Require Import Base Types Ctx Env Helpers Block Transition Upgrade SpecCommon SpecHelpers SpecFinality SpecSafety.

(** the stake of the validators of [new] that are slashed but are not slashed in [old] (the registry earlier; positions identify validators) *)
Fixpoint newly (old new : list Validator) : N :=
  match new with
  | [] => 0
  | v :: new' =>
    match old with
    | [] => (if v_slashed v then v_effective_balance v else 0) + newly [] new'
    | o :: old' => (if v_slashed v && negb (v_slashed o) then v_effective_balance v else 0) + newly old' new'
    end
  end.

Section Chain.
Variable E : Env.
(** chains of calls, newest state first, in which no block makes the code panic *)
Inductive calm (p0 : Fork * BeaconState) : list (Fork * BeaconState) -> Prop :=
| calm_start : calm p0 [p0]
| calm_slot f s t l : calm p0 ((f, s) :: l) -> slot s + 1 < 2 ^ 64 -> process_slots E f (slot s + 1) s = (Ok tt, t) -> calm p0 ((f, t) :: (f, s) :: l)
| calm_block f b s r t l : calm p0 ((f, s) :: l) -> process_block E f b s = (r, t) -> r <> Panic -> calm p0 ((f, t) :: (f, s) :: l)
| calm_upgrade f g s t l : calm p0 ((f, s) :: l) -> chain_call E (f, s) (g, t) -> f <> g -> calm p0 ((g, t) :: (f, s) :: l).

(** the stake of all validators that became slashed on the chain during epoch [e], each as it was at that moment *)
Fixpoint slashed_in (e : N) (w : list (Fork * BeaconState)) : N :=
  match w with
  | q :: ((p :: _) as l) => (if epoch_of E (snd p) =? e then newly (validators (snd p)) (validators (snd q)) else 0) + slashed_in e l
  | _ => 0
  end.
(** the entry of the record for epoch [e] *)
Definition slashed_entry (s : BeaconState) (e : N) : option N := nthN (slashings s) (e mod EPOCHS_PER_SLASHINGS_VECTOR E).
End Chain.
