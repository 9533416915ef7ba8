(** * Specification vocabulary: the archive of past roots

    Every [SLOTS_PER_HISTORICAL_ROOT] slots make a period; the archive has one entry for every period that is over. *)
From Verif Require Import Base Types Ctx Env Block Transition Upgrade SpecCommon SpecSlots SpecSafety.

Section Archive.
Context (E : Env).
(** entry [k] of the archive of [s] stands for the summary [h]: entries of forks before capella are the hash of the summary, later ones the summary itself *)
Definition archive_entry (s : BeaconState) (k : N) (h : HistoricalSummary) : Prop :=
  (exists r, nthN (historical_roots s) k = Some r /\ htr E (OHistoricalSummary h) = Some r)
  \/ (lenN (historical_roots s) <= k /\ nthN (historical_summaries s) (k - lenN (historical_roots s)) = Some h).
Definition archive_length (s : BeaconState) : N := lenN (historical_roots s) + lenN (historical_summaries s).
(** when the walk left slot [sl], the root of the block of that slot (or the last one before it) was [br] and the root of the state [sr] *)
Definition left_with (l : list (Fork * BeaconState)) (sl : N) (sr br : Root) : Prop :=
  exists f s t, In (f, s) l /\ In (f, t) l /\ slot s = sl /\ process_slots E f (sl + 1) s = (Ok tt, t) /\ roots_of_slot E f s sr br.
(** [h] summarizes period [k] of the walk: the hashes of the vectors of all block roots and of all state roots, slot by slot *)
Definition summarizes (l : list (Fork * BeaconState)) (k : N) (h : HistoricalSummary) : Prop :=
  exists blocks states, lenN blocks = SLOTS_PER_HISTORICAL_ROOT E /\ lenN states = SLOTS_PER_HISTORICAL_ROOT E
    /\ (forall j, j < SLOTS_PER_HISTORICAL_ROOT E -> exists sr br, left_with l (k * SLOTS_PER_HISTORICAL_ROOT E + j) sr br
          /\ nthN blocks j = Some br /\ nthN states j = Some sr)
    /\ htr E (ORoots blocks) = Some (hs_block_summary_root h) /\ htr E (ORoots states) = Some (hs_state_summary_root h).
End Archive.
