(** * Specification vocabulary: the inactivity scores along a chain *)
From Verif Require Import Base Types Ctx Env Helpers SpecCommon SpecHelpers SpecEpoch.

Section Score.
Variable E : Env.
(** the inactivity score of validator [i] (0 for validators that are not registered) *)
Definition score (s : BeaconState) (i : N) : N := match nthN (inactivity_scores s) i with Some x => x | None => 0 end.
(** an epoch ends between two successive states of a chain that have the scores (altair and later), and it is not the genesis epoch *)
Definition ends (p q : Fork * BeaconState) : bool := fork_le Altair (fst p) && negb (epoch_of E (snd p) =? epoch_of E (snd q)) && negb (epoch_of E (snd p) =? 0).
(** the ends of epochs on a chain (newest state first) at which validator [i] is credited with a timely vote for the target of the epoch
    before; and those at which it had the duty to vote (it was active, or is slashed and not yet withdrawable) but is not credited *)
Fixpoint hits (i : N) (w : list (Fork * BeaconState)) : N :=
  match w with
  | q :: ((p :: _) as l) => (if ends p q && voted_flag E (snd p) 1 i then 1 else 0) + hits i l
  | _ => 0
  end.
Fixpoint misses (i : N) (w : list (Fork * BeaconState)) : N :=
  match w with
  | q :: ((p :: _) as l) => (if ends p q && eligible_at E (snd p) i && negb (voted_flag E (snd p) 1 i) then 1 else 0) + misses i l
  | _ => 0
  end.
End Score.
