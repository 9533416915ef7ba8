(** * Specification vocabulary: when a block operation is valid, and what "rejected" means

    Only fields, comparisons, the oracles, and the signature predicates of SpecHelpers are used. *)
From Verif Require Import Base Types Ctx Env SpecCommon SpecHelpers SpecElectra.
From Coq Require Import Sorted.

Definition is_ok {A} (r : res A) : bool := match r with Ok _ => true | _ => false end.
(** the call does not succeed and leaves the state exactly as it was *)
Definition rejected {A} (m : St BeaconState A) (s : BeaconState) : Prop := is_ok (fst (m s)) = false /\ snd (m s) = s.

(** ** Slashings *)
Definition slashable_in (E : Env) (s : BeaconState) (v : Validator) : Prop :=
  v_slashed v = false /\ v_activation_epoch v <= epoch_of E s < v_withdrawable_epoch v.

(** two different headers of the same slot, signed by the same slashable proposer *)
Definition proposer_slashing_valid (E : Env) (s : BeaconState) (op : ProposerSlashing) : Prop :=
  let h1 := sbh_message (ps_1 op) in
  let h2 := sbh_message (ps_2 op) in
  bh_slot h1 = bh_slot h2 /\ bh_proposer_index h1 = bh_proposer_index h2 /\ h1 <> h2
  /\ exists v, nthN (validators s) (bh_proposer_index h1) = Some v /\ slashable_in E s v
       /\ signed_by E s [0; 0; 0; 0] (bh_slot h1 / SLOTS_PER_EPOCH E) (OHeader h1) (v_public_key v) (sbh_signature (ps_1 op))
       /\ signed_by E s [0; 0; 0; 0] (bh_slot h1 / SLOTS_PER_EPOCH E) (OHeader h2) (v_public_key v) (sbh_signature (ps_2 op)).

(** a well formed and correctly signed indexed attestation (the condition of C06) *)
Definition indexed_valid (E : Env) (s : BeaconState) (ia : IndexedAttestation) : Prop :=
  ia_attesting_indices ia <> [] /\ StronglySorted N.lt (ia_attesting_indices ia)
  /\ exists pks dom root,
       Forall2 (fun i pk => exists v, nthN (validators s) i = Some v /\ pk = v_public_key v) (ia_attesting_indices ia) pks
       /\ is_domain E [1; 0; 0; 0] (version_at s (cp_epoch (ad_target (ia_data ia)))) (genesis_validators_root s) dom
       /\ is_signing_root E (OAttestationData (ia_data ia)) dom root
       /\ fast_aggregate_verify_ok E pks root (ia_signature ia) = true.
(** validators provably guilty: attesters of both, and still slashable *)
Definition culpable (E : Env) (s : BeaconState) (op : AttesterSlashing) (i : N) : Prop :=
  In i (ia_attesting_indices (as_1 op)) /\ In i (ia_attesting_indices (as_2 op))
  /\ exists v, nthN (validators s) i = Some v /\ slashable_in E s v.
Definition attester_slashing_proven (E : Env) (s : BeaconState) (op : AttesterSlashing) : Prop :=
  let d1 := ia_data (as_1 op) in
  let d2 := ia_data (as_2 op) in
  (double_vote d1 d2 \/ surrounds d1 d2) /\ indexed_valid E s (as_1 op) /\ indexed_valid E s (as_2 op).

(** ** Exits *)
Definition pending_balance_of (s : BeaconState) (i : N) : N :=
  sumN (map ppw_amount (filter (fun w => ppw_index w =? i) (pending_partial_withdrawals s))).
(** condition under which the code accepts a voluntary exit.  The protocol demands
    [v_activation_epoch v + SHARD_COMMITTEE_PERIOD]; the code uses the eligibility epoch: see C15_service_time_refuted *)
Definition exit_domain_version (E : Env) (f : Fork) (s : BeaconState) (e : N) : bytes :=
  match f with Deneb | Electra => CAPELLA_FORK_VERSION E | _ => version_at s e end.
Definition voluntary_exit_valid (E : Env) (f : Fork) (s : BeaconState) (op : SignedVoluntaryExit) : Prop :=
  let x := sve_message op in
  exists v, nthN (validators s) (ve_validator_index x) = Some v
    /\ v_activation_epoch v <= epoch_of E s < v_exit_epoch v
    /\ v_exit_epoch v = FAR_FUTURE_EPOCH
    /\ ve_epoch x <= epoch_of E s
    /\ v_activation_eligibility_epoch v + SHARD_COMMITTEE_PERIOD E <= epoch_of E s
    /\ (f = Electra -> pending_balance_of s (ve_validator_index x) = 0)
    /\ exists d root, is_domain E [4; 0; 0; 0] (exit_domain_version E f s (ve_epoch x)) (genesis_validators_root s) d
         /\ is_signing_root E (OVoluntaryExit x) d root /\ bls_verify E (v_public_key v) root (sve_signature op) = true.

(** ** Headers, randao *)
Definition header_acceptable (E : Env) (s : BeaconState) (b : BeaconBlock) (proposer : N) : Prop :=
  bk_slot b = slot s /\ bh_slot (latest_block_header s) < bk_slot b /\ bk_proposer_index b = proposer
  /\ htr E (OHeader (latest_block_header s)) = Some (bk_parent_root b).

(** ** Slashing effect *)
(** add to / subtract from (down to 0) one entry of a list *)
Definition credit (i d : N) (l : list N) : list N := match nthN l i with Some b => updN l i (b + d) | None => l end.
Definition debit (i d : N) (l : list N) : list N := match nthN l i with Some b => updN l i (b - d) | None => l end.
(** the fraction of the effective balance taken at once, and the fraction rewarded, as each fork specifies *)
Definition penalty_quotient (E : Env) (f : Fork) : N :=
  match f with
  | Phase0 => MIN_SLASHING_PENALTY_QUOTIENT E
  | Altair => MIN_SLASHING_PENALTY_QUOTIENT_ALTAIR E
  | Bellatrix | Capella | Deneb => MIN_SLASHING_PENALTY_QUOTIENT_BELLATRIX E
  | Electra => MIN_SLASHING_PENALTY_QUOTIENT_ELECTRA E
  end.
Definition reward_quotient (E : Env) (f : Fork) : N :=
  match f with Electra => WHISTLEBLOWER_REWARD_QUOTIENT_ELECTRA E | _ => WHISTLEBLOWER_REWARD_QUOTIENT E end.
Definition slashing_quotients_pos (E : Env) (f : Fork) : Prop :=
  1 <= penalty_quotient E f /\ 1 <= reward_quotient E f /\ 1 <= PROPOSER_REWARD_QUOTIENT E.
(** room in the exit queue *)
Definition exit_room (E : Env) (f : Fork) (s : BeaconState) : Prop :=
  match f with
  | Electra => active_balance_fits E s /\ exit_balance_to_consume s < 2 ^ 62 /\ exit_queue_start E s + staying (validators s) < 2 ^ 62
  | _ => exits_below s (2 ^ 62)
  end.
(** balances and slashing sums far from overflow *)
Definition amounts_small (s : BeaconState) : Prop :=
  (forall b, In b (balances s) -> b < 2 ^ 62) /\ (forall x, In x (slashings s) -> x < 2 ^ 62).
