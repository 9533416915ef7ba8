(** * Specification: the genesis state

    Only fields, lists and arithmetic; no model function is used here. *)
From Verif Require Import Base Types Ctx Env SpecCommon SpecHelpers SpecFlow.

(** what a list of deposits amounts to: one entry per key, in order of first valid deposit *)
Record Entry : Type := mkEntry { en_key : bytes; en_credentials : bytes; en_balance : N }.
Inductive registry (E : Env) : list DepositData -> list Entry -> Prop :=
| reg_none : registry E [] []
(** a deposit for a known key adds to its balance, whatever its signature *)
| reg_top_up ds d r1 e r2 : registry E ds (r1 ++ e :: r2) -> en_key e = dd_public_key d -> ~ In (dd_public_key d) (map en_key r1) ->
    registry E (ds ++ [d]) (r1 ++ mkEntry (en_key e) (en_credentials e) (en_balance e + dd_amount d) :: r2)
(** a signed deposit for a new key makes a new entry *)
| reg_new ds d r : registry E ds r -> ~ In (dd_public_key d) (map en_key r) ->
    deposit_signed E (dd_public_key d) (dd_withdrawal_credentials d) (dd_amount d) (dd_signature d) ->
    registry E (ds ++ [d]) (r ++ [mkEntry (dd_public_key d) (dd_withdrawal_credentials d) (dd_amount d)])
(** any other deposit is ignored *)
| reg_ignored ds d r : registry E ds r -> ~ In (dd_public_key d) (map en_key r) ->
    ~ deposit_signed E (dd_public_key d) (dd_withdrawal_credentials d) (dd_amount d) (dd_signature d) -> registry E (ds ++ [d]) r.

(** the effective balance and activation of an entry *)
Definition genesis_effective (E : Env) (balance : N) : N :=
  N.min (balance / EFFECTIVE_BALANCE_INCREMENT E * EFFECTIVE_BALANCE_INCREMENT E) (MAX_EFFECTIVE_BALANCE E).
Definition genesis_validator (E : Env) (e : Entry) : Validator :=
  let eff := genesis_effective E (en_balance e) in
  let activation := if eff =? MAX_EFFECTIVE_BALANCE E then 0 else FAR_FUTURE_EPOCH in
  mkValidator (en_key e) (en_credentials e) eff false activation activation FAR_FUTURE_EPOCH FAR_FUTURE_EPOCH.

(** deposit [i] is proven against the root of the list of the first [i + 1] deposits *)
Definition genesis_proven (E : Env) (ds : list Deposit) (i : N) (d : Deposit) : Prop :=
  exists leaf root, htr E (ODepositData (dep_data d)) = Some leaf
    /\ htr E (ODepositDataList (firstN (i + 1) (map dep_data ds))) = Some root
    /\ merkle_branch_ok E leaf (dep_proof d) 33 i root = true.

Definition genesis_version (E : Env) (f : Fork) : bytes :=
  match f with
  | Phase0 => GENESIS_FORK_VERSION E | Altair => ALTAIR_FORK_VERSION E | Bellatrix => BELLATRIX_FORK_VERSION E
  | Capella => CAPELLA_FORK_VERSION E | Deneb => DENEB_FORK_VERSION E | Electra => ELECTRA_FORK_VERSION E
  end.
(** the fields not determined by the deposits *)
Definition genesis_frame (E : Env) (f : Fork) (block_hash : bytes) (timestamp count : N) (s : BeaconState) : Prop :=
  genesis_time s = timestamp + GENESIS_DELAY E /\ slot s = 0
  /\ fork s = mkForkRec (genesis_version E f) (genesis_version E f) 0
  /\ (exists body_root, latest_block_header s = mkHeader 0 0 zero32 zero32 body_root)
  /\ block_roots s = repeatN zero32 (SLOTS_PER_HISTORICAL_ROOT E) /\ state_roots s = repeatN zero32 (SLOTS_PER_HISTORICAL_ROOT E)
  /\ historical_roots s = [] /\ historical_summaries s = []
  /\ e1_deposit_count (eth1_data s) = count /\ e1_block_hash (eth1_data s) = block_hash /\ eth1_data_votes s = [] /\ eth1_deposit_index s = count
  /\ randao_mixes s = repeatN block_hash (EPOCHS_PER_HISTORICAL_VECTOR E) /\ slashings s = repeatN 0 (EPOCHS_PER_SLASHINGS_VECTOR E)
  /\ justification_bits s = repeat false 4 /\ previous_justified_checkpoint s = mkCheckpoint 0 zero32
  /\ current_justified_checkpoint s = mkCheckpoint 0 zero32 /\ finalized_checkpoint s = mkCheckpoint 0 zero32
  /\ previous_epoch_attestations s = [] /\ current_epoch_attestations s = []
  /\ next_withdrawal_index s = 0 /\ next_withdrawal_validator_index s = 0.
(** the columns determined by the registry *)
Definition genesis_registry (E : Env) (f : Fork) (r : list Entry) (s : BeaconState) : Prop :=
  validators s = map (genesis_validator E) r /\ balances s = map en_balance r
  /\ (f <> Phase0 -> previous_epoch_participation s = map (fun _ => 0) r /\ current_epoch_participation s = map (fun _ => 0) r /\ inactivity_scores s = map (fun _ => 0) r).
