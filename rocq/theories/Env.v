(** * Env: the environment a model function runs in

    Configuration, build flags and the external code (as oracles).  Theorems quantify over every [Env]; a fact about
    an oracle is used only when it is a visible hypothesis. *)
From Verif Require Export Base Types Ctx.

(** domains.rs:1-17 *)
Inductive DomainType : Type :=
| DBeaconProposer | DBeaconAttester | DRandao | DDeposit | DVoluntaryExit | DSelectionProof
| DAggregateAndProof | DSyncCommittee | DSyncCommitteeSelectionProof | DContributionAndProof
| DBlsToExecutionChange | DConsolidation | DApplicationMask | DApplicationBuilder.

(** Every SSZ object whose [hash_tree_root] is taken by the modelled code.  Keeping one sum type makes the Merkleization
    oracle a single function; distinct Rust types are distinct constructors. *)
Inductive SszObj : Type :=
| OU64 (x : N)
| OBytes32 (b : bytes)
| OForkData (current_version : bytes) (genesis_validators_root : Root)   (* phase0/beacon_state.rs:25-29 *)
| OSigningData (object_root : Root) (domain : bytes)                       (* signing.rs:8-12 *)
| OHeader (h : BeaconBlockHeader)
| OAttestationData (d : AttestationData)
| OVoluntaryExit (e : VoluntaryExit)
| ODepositMessage (m : DepositMessage)
| ODepositData (d : DepositData)
| ODepositDataList (l : list DepositData)
| OBlock (f : Fork) (b : BeaconBlock)
| OBody (f : Fork) (b : BeaconBlockBody)
| OState (f : Fork) (s : BeaconState)
| OValidators (l : list Validator)
| OHistoricalSummary (h : HistoricalSummary)                                (* phase0/beacon_state.rs:42-45 *)
| ORoots (l : list Root)
| OTransactions (l : list bytes)
| OWithdrawals (l : list Withdrawal)
| ODepositReceipts (l : list DepositReceipt)
| OWithdrawalRequests (l : list ExecutionLayerWithdrawalRequest)
| OBlsChange (c : BlsToExecutionChange)
| OConsolidation (c : Consolidation)
| OSyncAggregatorSelectionData (slot subcommittee_index : N).

(** arguments of [ExecutionEngine::verify_and_notify_new_payload]
    (execution_engine.rs, deneb/execution_engine.rs, electra/execution_engine.rs) *)
Record PayloadRequest : Type := mkPayloadRequest {
  pr_fork : Fork;
  pr_payload : ExecutionPayload;
  pr_versioned_hashes : list bytes;       (* deneb on *)
  pr_parent_beacon_block_root : Root      (* deneb on *)
}.

Record Oracles : Type := mkOracles {
  (** crypto/bls.rs:12-20: SHA-256 *)
  hash : bytes -> bytes;
  (** ssz_rs [HashTreeRoot::hash_tree_root]; [None] models the [MerkleizationError] result (e.g. a list beyond its bound) *)
  htr : SszObj -> option Root;
  (** crypto/bls.rs:61-74 [verify_signature] returned [Ok] *)
  bls_verify : bytes -> bytes -> bytes -> bool;
  (** crypto/bls.rs:112-131 [fast_aggregate_verify] returned [Ok] *)
  fast_aggregate_verify_ok : list bytes -> bytes -> bytes -> bool;
  (** the BLS aggregation performed by [eth_aggregate_public_keys] (crypto/bls.rs:134-150) on a non-empty list;
      [None] when blst rejects a key *)
  aggregate_pks : list bytes -> option bytes;
  (** ssz_rs [is_valid_merkle_branch(leaf, branch, depth, index, root)] returned [Ok] *)
  merkle_branch_ok : bytes -> list bytes -> N -> N -> Root -> bool;
  (** the execution engine accepted the payload *)
  engine_ok : PayloadRequest -> bool
}.

Record Env : Type := mkEnv {
  ctx :> Ctx;
  orc :> Oracles;
  chk : bool;                (* cfg(overflow_checks): debug build true, release build false *)
  feat_shuffling : bool;     (* cargo feature "shuffling" (ethereum-consensus/Cargo.toml) *)
  fuel : nat                 (* bound on the iterations of the two unbounded sampling loops *)
}.

Definition FAR_FUTURE_EPOCH : N := U64_MAX. (* primitives.rs:45 *)
Definition GENESIS_EPOCH : N := 0.          (* primitives.rs:44 *)
Definition GENESIS_SLOT : N := 0.           (* primitives.rs:43 *)

(** [x.hash_tree_root()?] *)
Definition htr_r (E : Env) (o : SszObj) : res Root := ok_or (htr E o) EMerkleization.
(** [verify_signature(..)?] *)
Definition verify_sig (E : Env) (pk msg sig : bytes) : res unit := require (bls_verify E pk msg sig) EBls.

Definition add (E : Env) := uadd (chk E).
Definition sub (E : Env) := usub (chk E).
Definition mul (E : Env) := umul (chk E).
