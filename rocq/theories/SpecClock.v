(** * Specification: slot intervals, fork schedules, domain types.  Independent of the model's functions. *)
From Verif Require Export Env.

(** nanoseconds at which slot [k] starts, for a genesis time and a slot length in seconds *)
Definition slot_start (genesis seconds : N) (k : N) : N := (genesis + k * seconds) * 1000000000.
(** [k] is the slot in progress at time [t] *)
Definition in_slot (genesis seconds k t : N) : Prop := slot_start genesis seconds k <= t /\ t < slot_start genesis seconds (k + 1).

(** epoch from which a fork is configured to be active *)
Definition activation (C : Ctx) (f : Fork) : N :=
  match f with
  | Phase0 => 0
  | Altair => ALTAIR_FORK_EPOCH C
  | Bellatrix => BELLATRIX_FORK_EPOCH C
  | Capella => CAPELLA_FORK_EPOCH C
  | Deneb => DENEB_FORK_EPOCH C
  | Electra => ELECTRA_FORK_EPOCH C
  end.
Definition reached (C : Ctx) (f : Fork) (sl : N) : Prop := activation C f * SLOTS_PER_EPOCH C <= sl.
Definition ordered_schedule (C : Ctx) : Prop :=
  ALTAIR_FORK_EPOCH C <= BELLATRIX_FORK_EPOCH C /\ BELLATRIX_FORK_EPOCH C <= CAPELLA_FORK_EPOCH C
  /\ CAPELLA_FORK_EPOCH C <= DENEB_FORK_EPOCH C /\ DENEB_FORK_EPOCH C <= ELECTRA_FORK_EPOCH C.

(** the four bytes of each domain type of the consensus specification *)
Definition type_bytes (d : DomainType) : bytes :=
  match d with
  | DBeaconProposer => [0; 0; 0; 0] | DBeaconAttester => [1; 0; 0; 0] | DRandao => [2; 0; 0; 0] | DDeposit => [3; 0; 0; 0]
  | DVoluntaryExit => [4; 0; 0; 0] | DSelectionProof => [5; 0; 0; 0] | DAggregateAndProof => [6; 0; 0; 0]
  | DSyncCommittee => [7; 0; 0; 0] | DSyncCommitteeSelectionProof => [8; 0; 0; 0] | DContributionAndProof => [9; 0; 0; 0]
  | DBlsToExecutionChange => [10; 0; 0; 0] | DConsolidation => [11; 0; 0; 0]
  | DApplicationMask | DApplicationBuilder => [0; 0; 0; 1]
  end.
