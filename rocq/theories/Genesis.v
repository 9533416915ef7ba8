(** * Genesis: <fork>/genesis.rs *)
From Verif Require Export Upgrade.

Section WithEnv.
Variable E : Env.

Definition genesis_fork_version (f : Fork) : bytes :=
  match f with
  | Phase0 => GENESIS_FORK_VERSION E
  | Altair => ALTAIR_FORK_VERSION E
  | Bellatrix => BELLATRIX_FORK_VERSION E
  | Capella => CAPELLA_FORK_VERSION E
  | Deneb => DENEB_FORK_VERSION E
  | Electra => ELECTRA_FORK_VERSION E
  end.

Definition default_eth1_data : Eth1Data := mkEth1 zero32 0 zero32.
(** [BeaconBlockBody::default()] *)
Definition default_body : BeaconBlockBody :=
  mkBody (repeat 0 96) default_eth1_data zero32 [] [] [] [] []
    (mkSyncAgg (repeatN false (SYNC_COMMITTEE_SIZE E)) (repeat 0 96)) (default_payload E) [] [] [].

Definition zero_checkpoint : Checkpoint := mkCheckpoint 0 zero32.

(** phase0/genesis.rs:46-78, bellatrix/genesis.rs:51-90, electra/genesis.rs:66-112: the initial state *)
Definition genesis_base (genesis_time : N) (f : Fork) (block_hash : bytes) (count : N) (body_root : Root)
    (ph : ExecutionPayloadHeader) : BeaconState :=
  mkState genesis_time zero32 0 (mkForkRec (genesis_fork_version f) (genesis_fork_version f) GENESIS_EPOCH)
    (mkHeader 0 0 zero32 zero32 body_root)
    (repeatN zero32 (SLOTS_PER_HISTORICAL_ROOT E)) (repeatN zero32 (SLOTS_PER_HISTORICAL_ROOT E)) []
    (mkEth1 zero32 count block_hash) [] 0 [] []
    (repeatN block_hash (EPOCHS_PER_HISTORICAL_VECTOR E)) (repeatN 0 (EPOCHS_PER_SLASHINGS_VECTOR E))
    [] [] [] [] (repeat false 4) zero_checkpoint zero_checkpoint zero_checkpoint []
    (default_sync_committee E) (default_sync_committee E) ph 0 0 [] 0 0 0 0 0 0 [] [] [].

(** phase0/genesis.rs:80-85: the deposits, each against the root of the list so far *)
Fixpoint genesis_deposits (f : Fork) (l : list Deposit) (leaves : list DepositData) : St BeaconState unit :=
  match l with
  | [] => sret tt
  | d :: t =>
    let leaves' := leaves ++ [dep_data d] in
    let* root := lift (htr_r E (ODepositDataList leaves')) in
    md (fun s => set_eth1_data (mkEth1 root (e1_deposit_count (eth1_data s)) (e1_block_hash (eth1_data s))) s) ;;
    process_deposit E f d ;;
    genesis_deposits f t leaves'
  end.

(** electra/genesis.rs:121-124 *)
Definition genesis_drain_pending : St BeaconState unit :=
  let* l := rd (fun s => Ok (pending_balance_deposits s)) in
  md (set_pending_balance_deposits []) ;;
  sfor l (fun d => increase_balance E (pbd_index d) (pbd_amount d)).

(** phase0/genesis.rs:87-99 *)
Definition genesis_activation_step (i : N) : St BeaconState unit :=
  let* b := rd (fun s => let! _ := idx (validators s) i in idx (balances s) i) in
  let* e := lift (let! m := umod b (EFFECTIVE_BALANCE_INCREMENT E) in sub E b m) in
  let eff := N.min e (MAX_EFFECTIVE_BALANCE E) in
  mod_validator i (set_v_effective_balance eff) ;;
  swhen (eff =? MAX_EFFECTIVE_BALANCE E)
    (mod_validator i (fun v => set_v_activation_epoch GENESIS_EPOCH (set_v_activation_eligibility_epoch GENESIS_EPOCH v))).

(** phase0/genesis.rs:80-101, bellatrix/genesis.rs:92-117, electra/genesis.rs:114-144 *)
Definition genesis_steps (f : Fork) (deposits : list Deposit) : St BeaconState unit :=
  genesis_deposits f deposits [] ;;
  swhen (fork_le Electra f) genesis_drain_pending ;;
  let* n := rd (fun s => Ok (lenN (validators s))) in
  sfor (rangeN n) genesis_activation_step ;;
  let* root := rd (fun s => htr_r E (OValidators (validators s))) in
  md (set_genesis_validators_root root) ;;
  swhen (fork_le Altair f)
    (let* c := rd (get_next_sync_committee E) in
     md (fun s => set_next_sync_committee c (set_current_sync_committee c s))).

(** phase0/genesis.rs:15-104, altair/genesis.rs:12-109, bellatrix/genesis.rs:11-120, capella and deneb likewise,
    electra/genesis.rs:12-147 *)
Definition initialize_beacon_state_from_eth1 (f : Fork) (block_hash : bytes) (timestamp : N) (deposits : list Deposit)
    (header : option ExecutionPayloadHeader) : res BeaconState :=
  let! body_root := htr_r E (OBody f default_body) in
  let! gt := add E timestamp (GENESIS_DELAY E) in
  let ph := match header with Some h => h | None => default_payload_header E end in
  let (r, s) := genesis_steps f deposits (genesis_base gt f block_hash (lenN deposits) body_root ph) in
  let! _ := r in Ok s.

(** phase0/genesis.rs:106-134 *)
Definition is_valid_genesis_state (s : BeaconState) : bool :=
  if genesis_time s <? MIN_GENESIS_TIME E then false
  else MIN_GENESIS_ACTIVE_VALIDATOR_COUNT E <=? lenN (get_active_validator_indices s GENESIS_EPOCH).

(** phase0/genesis.rs:136-172 *)
Definition get_genesis_block (f : Fork) (s : BeaconState) : res BeaconBlock :=
  let! root := htr_r E (OState f s) in
  Ok (mkBlock 0 0 zero32 root default_body).

End WithEnv.
