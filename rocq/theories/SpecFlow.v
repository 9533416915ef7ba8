(** * Specification vocabulary: deposits, sync committee rewards, withdrawals

    Only fields, lists, filters and arithmetic; no model function is used here. *)
From Verif Require Import Base Types Ctx Env SpecCommon SpecHelpers SpecElectra SpecOps SpecBlock SpecAtt SpecEpoch.

(** ** Deposits *)
(** the deposit is the next one under the recorded deposit root *)
Definition deposit_proven (E : Env) (s : BeaconState) (d : Deposit) : Prop :=
  exists leaf, htr E (ODepositData (dep_data d)) = Some leaf
    /\ merkle_branch_ok E leaf (dep_proof d) 33 (eth1_deposit_index s) (e1_deposit_root (eth1_data s)) = true.
(** the first validator with a public key *)
Definition key_holder (s : BeaconState) (pk : bytes) (i : N) : Prop :=
  key_of s i = Some pk /\ forall j, j < i -> key_of s j <> Some pk.
Definition key_unknown (s : BeaconState) (pk : bytes) : Prop := forall i, key_of s i <> Some pk.
(** the deposit domain: genesis fork version and zero root *)
Definition deposit_domain (E : Env) (dom : bytes) : Prop := is_domain E [3; 0; 0; 0] (GENESIS_FORK_VERSION E) zero32 dom.
Definition deposit_signed (E : Env) (pk wc : bytes) (amount : N) (sig : bytes) : Prop :=
  exists dom root, deposit_domain E dom /\ is_signing_root E (ODepositMessage (mkDepMsg pk wc amount)) dom root /\ bls_verify E pk root sig = true.
(** the record of a new validator *)
Definition new_record (E : Env) (f : Fork) (pk wc : bytes) (amount : N) : Validator :=
  mkValidator pk wc
    (match f with Electra => 0 | _ => N.min (amount / EFFECTIVE_BALANCE_INCREMENT E * EFFECTIVE_BALANCE_INCREMENT E) (MAX_EFFECTIVE_BALANCE E) end)
    false FAR_FUTURE_EPOCH FAR_FUTURE_EPOCH FAR_FUTURE_EPOCH FAR_FUTURE_EPOCH.
(** the state with one more validator *)
Definition with_validator (f : Fork) (v : Validator) (balance : N) (s : BeaconState) : BeaconState :=
  let s1 := set_balances (balances s ++ [balance]) (set_validators (validators s ++ [v]) s) in
  match f with
  | Phase0 => s1
  | _ => set_inactivity_scores (inactivity_scores s ++ [0]) (set_current_epoch_participation (current_epoch_participation s ++ [0])
           (set_previous_epoch_participation (previous_epoch_participation s ++ [0]) s1))
  end.
Definition with_deposit_counted (s : BeaconState) : BeaconState := set_eth1_deposit_index (eth1_deposit_index s + 1) s.

(** ** Sync committee *)
Definition sync_reference_slot (s : BeaconState) : N := N.max (slot s) 1 - 1.
(** public keys whose bit is set *)
Definition participating_keys (keys : list bytes) (bits : list bool) : list bytes := map snd (filter fst (combine bits keys)).
Definition sync_aggregate_valid (E : Env) (s : BeaconState) (sa : SyncAggregate) : Prop :=
  let sl := sync_reference_slot s in
  let keys := participating_keys (sc_public_keys (current_sync_committee s)) (sa_bits sa) in
  sl < slot s <= sl + SLOTS_PER_HISTORICAL_ROOT E
  /\ exists block dom root, recorded_root E s sl = Some block
    /\ is_domain E [7; 0; 0; 0] (version_at s (sl / SLOTS_PER_EPOCH E)) (genesis_validators_root s) dom
    /\ is_signing_root E (OBytes32 block) dom root
    /\ (fast_aggregate_verify_ok E keys root (sa_signature sa) = true \/ (keys = [] /\ sa_signature sa = 192 :: repeat 0 95)).
Definition reward_per_increment (E : Env) (s : BeaconState) : N :=
  EFFECTIVE_BALANCE_INCREMENT E * BASE_REWARD_FACTOR E / N.sqrt (active_balance E s).
Definition sync_member_reward (E : Env) (s : BeaconState) : N :=
  reward_per_increment E s * (active_balance E s / EFFECTIVE_BALANCE_INCREMENT E) * 2 / 64 / SLOTS_PER_EPOCH E / SYNC_COMMITTEE_SIZE E.
Definition sync_proposer_reward (E : Env) (s : BeaconState) : N := sync_member_reward E s * 8 / 56.
(** the last validator with a public key *)
Definition last_key_holder (s : BeaconState) (pk : bytes) (i : N) : Prop :=
  key_of s i = Some pk /\ forall j, i < j -> key_of s j <> Some pk.
Definition sync_balances (participant proposer p : N) (members : list (N * bool)) (bal : list N) : list N :=
  fold_left (fun b m => if snd m : bool then credit p proposer (credit (fst m) participant b) else debit (fst m) participant b) members bal.
(** the products of the reward computation fit in 64 bits *)
Definition sync_rewards_fit (E : Env) (s : BeaconState) : Prop :=
  reward_per_increment E s * (active_balance E s / EFFECTIVE_BALANCE_INCREMENT E) * 2 < 2 ^ 64 /\ sync_member_reward E s * 8 < 2 ^ 64.

(** ** Withdrawals *)
(** what the sweep withdraws from a validator with balance [b]: everything once withdrawable, else the excess over the cap *)
Definition sweep_due (E : Env) (f : Fork) (s : BeaconState) (v : Validator) (b : N) : option N :=
  let cap := balance_cap E f v in
  let address := kind_is 1 v || match f with Electra => kind_is 2 v | _ => false end in
  if address && (v_withdrawable_epoch v <=? epoch_of E s) && (0 <? b) then Some b
  else if address && (v_effective_balance v =? cap) && (cap <? b) then Some (b - cap) else None.
Definition due_at (E : Env) (f : Fork) (s : BeaconState) (i : N) : option N :=
  match nthN (validators s) i, nthN (balances s) i with Some v, Some b => sweep_due E f s v b | _, _ => None end.
Definition execution_address (s : BeaconState) (i : N) : bytes :=
  match nthN (validators s) i with Some v => skipn 12 (v_withdrawal_credentials v) | None => [] end.
(** validators examined, in order *)
Definition sweep_length (E : Env) (s : BeaconState) : N := N.min (lenN (validators s)) (MAX_VALIDATORS_PER_WITHDRAWALS_SWEEP E).
Definition sweep_order (s : BeaconState) (n : N) : list N :=
  map (fun k => (next_withdrawal_validator_index s + k) mod lenN (validators s)) (rangeN n).
Definition has_due (E : Env) (f : Fork) (s : BeaconState) (i : N) : bool := match due_at E f s i with Some _ => true | None => false end.
(** withdrawals for the validators [l], numbered from [wi] *)
Fixpoint numbered (E : Env) (f : Fork) (s : BeaconState) (wi : N) (l : list N) : list Withdrawal :=
  match l with
  | [] => []
  | i :: t => mkWithdrawal wi i (execution_address s i) (match due_at E f s i with Some a => a | None => 0 end) :: numbered E f s (wi + 1) t
  end.
Definition swept (E : Env) (f : Fork) (s : BeaconState) : list N :=
  firstN (MAX_WITHDRAWALS_PER_PAYLOAD E) (filter (has_due E f s) (sweep_order s (sweep_length E s))).
Definition expected_withdrawals (E : Env) (f : Fork) (s : BeaconState) : list Withdrawal :=
  numbered E f s (next_withdrawal_index s) (swept E f s).
Definition after_withdrawals (ws : list Withdrawal) (bal : list N) : list N :=
  fold_left (fun b w => debit (w_validator_index w) (w_amount w) b) ws bal.
(** where the next sweep starts *)
Definition next_sweep_start (E : Env) (s : BeaconState) (ws : list Withdrawal) : N :=
  (if lenN ws =? MAX_WITHDRAWALS_PER_PAYLOAD E
   then match rev ws with w :: _ => w_validator_index w + 1 | [] => 0 end
   else next_withdrawal_validator_index s + MAX_VALIDATORS_PER_WITHDRAWALS_SWEEP E) mod lenN (validators s).
(** the sweep pointer is a validator index and indices are far from overflow *)
Definition sweep_ready (s : BeaconState) : Prop :=
  lenN (balances s) = lenN (validators s) /\ lenN (validators s) <= 2 ^ 40 /\ next_withdrawal_validator_index s < lenN (validators s)
  /\ next_withdrawal_index s < 2 ^ 63.
(** configured limits *)
Definition withdrawal_limits (c : Ctx) : Prop := 1 <= MAX_WITHDRAWALS_PER_PAYLOAD c <= 2 ^ 32 /\ MAX_VALIDATORS_PER_WITHDRAWALS_SWEEP c <= 2 ^ 32.

(** ** Merkle proofs *)
(** root of a branch: at level [i] the sibling comes first iff bit [i] of the index is set *)
Fixpoint branch_root (H : bytes -> bytes) (value : bytes) (branch : list bytes) (index : N) : bytes :=
  match branch with
  | [] => value
  | b :: t => branch_root H (if N.odd index then H (b ++ value) else H (value ++ b)) t (index / 2)
  end.
(** two different 64-byte inputs with the same hash *)
Definition collision (H : bytes -> bytes) (x y : bytes) : Prop := lenN x = 64 /\ lenN y = 64 /\ x <> y /\ H x = H y.
