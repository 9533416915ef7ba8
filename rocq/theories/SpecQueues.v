(** * Specification vocabulary: the electra queues (pending deposits, consolidations, withdrawal requests)

    Only fields, lists, filters and arithmetic; no model function is used here. *)
From Verif Require Import Base Types Ctx Env SpecCommon SpecHelpers SpecElectra SpecOps SpecBlock SpecAtt SpecEpoch SpecUpgrade SpecFlow.

(** ** Pending deposits *)
Definition queue_total (l : list PendingBalanceDeposit) : N := sumN (map pbd_amount l).
(** balance that may be credited this epoch: what was carried over plus the churn *)
Definition deposit_budget (E : Env) (s : BeaconState) : N := deposit_balance_to_consume s + exit_churn E s.
(** [k] is the length of the longest prefix of the queue that the budget covers *)
Definition covered (budget : N) (l : list PendingBalanceDeposit) (k : N) : Prop :=
  k <= lenN l /\ queue_total (firstN k l) <= budget /\ (k < lenN l -> budget < queue_total (firstN (k + 1) l)).
(** queued indices are registered, and balances plus queued amounts fit in 64 bits *)
Definition queue_sound (s : BeaconState) : Prop :=
  lenN (balances s) = lenN (validators s)
  /\ (forall d, In d (pending_balance_deposits s) -> pbd_index d < lenN (balances s))
  /\ sumN (balances s) + queue_total (pending_balance_deposits s) < 2 ^ 64.

(** ** Compounding credentials *)
(** credentials 0x01 become 0x02 and the balance above the activation balance is queued; other validators are left alone *)
Definition compounded (E : Env) (i : N) (s : BeaconState) : BeaconState :=
  match nthN (validators s) i, nthN (balances s) i with
  | Some v, Some b =>
    if kind_is 1 v then
      let s1 := set_validators (updN (validators s) i (set_v_withdrawal_credentials (2 :: skipn 1 (v_withdrawal_credentials v)) v)) s in
      if MIN_ACTIVATION_BALANCE E <? b
      then set_pending_balance_deposits (pending_balance_deposits s ++ [mkPBD i (b - MIN_ACTIVATION_BALANCE E)])
             (set_balances (updN (balances s) i (MIN_ACTIVATION_BALANCE E)) s1)
      else s1
    else s
  | _, _ => s
  end.

(** ** Pending consolidations *)
(** an entry is due when its source was slashed or is withdrawable *)
Definition consolidation_due (E : Env) (s : BeaconState) (c : PendingConsolidation) : Prop :=
  exists v, nthN (validators s) (pc_source_index c) = Some v /\ (v_slashed v = true \/ v_withdrawable_epoch v <= epoch_of E s).
(** [k] is the length of the longest prefix of due entries *)
Definition due_prefix (E : Env) (s : BeaconState) (k : N) : Prop :=
  k <= lenN (pending_consolidations s) /\ (forall c, In c (firstN k (pending_consolidations s)) -> consolidation_due E s c)
  /\ (forall c, nthN (pending_consolidations s) k = Some c -> ~ consolidation_due E s c).
(** the part of a validator's balance that counts as stake *)
Definition active_part (E : Env) (s : BeaconState) (i : N) : N :=
  match nthN (validators s) i with Some v => N.min (balance_at s i) (balance_cap E Electra v) | None => 0 end.
(** one entry: a slashed source is skipped; otherwise the target becomes compounding and receives the source's active balance *)
Definition consolidated (E : Env) (s : BeaconState) (c : PendingConsolidation) : BeaconState :=
  match nthN (validators s) (pc_source_index c) with
  | Some v =>
    if v_slashed v then s
    else
      let s1 := compounded E (pc_target_index c) s in
      let a := active_part E s1 (pc_source_index c) in
      set_balances (credit (pc_target_index c) a (debit (pc_source_index c) a (balances s1))) s1
  | None => s
  end.
Definition consolidations_sound (s : BeaconState) : Prop :=
  forall c, In c (pending_consolidations s) -> pc_source_index c < lenN (validators s) /\ pc_target_index c < lenN (validators s).

(** ** Consolidation scheduling *)
(** balance that may be consolidated until epoch [e] when [limit] may be consolidated per epoch *)
Definition consolidation_start (E : Env) (s : BeaconState) : N := N.max (earliest_consolidation_epoch s) (earliest_exit E s).
Definition consolidation_capacity (E : Env) (limit : N) (s : BeaconState) (e : N) : N :=
  (if earliest_consolidation_epoch s <? earliest_exit E s then limit else consolidation_balance_to_consume s)
  + (e - consolidation_start E s) * limit.

(** ** Consolidation operations *)
Definition consolidation_valid (E : Env) (s : BeaconState) (op : SignedConsolidation) (src tgt : Validator) : Prop :=
  let c := scn_message op in
  lenN (pending_consolidations s) < PENDING_CONSOLIDATIONS_LIMIT E
  /\ MIN_ACTIVATION_BALANCE E < consolidation_churn E s
  /\ cn_source_index c <> cn_target_index c
  /\ nthN (validators s) (cn_source_index c) = Some src /\ nthN (validators s) (cn_target_index c) = Some tgt
  /\ active_at (epoch_of E s) src = true /\ active_at (epoch_of E s) tgt = true
  /\ v_exit_epoch src = FAR_FUTURE_EPOCH /\ v_exit_epoch tgt = FAR_FUTURE_EPOCH
  /\ cn_epoch c <= epoch_of E s
  /\ kind_is 1 src || kind_is 2 src = true /\ kind_is 1 tgt || kind_is 2 tgt = true
  /\ skipn 12 (v_withdrawal_credentials src) = skipn 12 (v_withdrawal_credentials tgt)
  /\ exists d root, is_domain E [11; 0; 0; 0] (GENESIS_FORK_VERSION E) (genesis_validators_root s) d
       /\ is_signing_root E (OConsolidation c) d root
       /\ fast_aggregate_verify_ok E [v_public_key src; v_public_key tgt] root (scn_signature op) = true.

(** ** Withdrawal requests *)
(** the request comes from the execution address of an active validator [i] that served long enough and is not exiting *)
Definition request_authorised (E : Env) (s : BeaconState) (r : ExecutionLayerWithdrawalRequest) (i : N) (v : Validator) : Prop :=
  key_holder s (elw_validator_public_key r) i /\ nthN (validators s) i = Some v
  /\ kind_is 1 v || kind_is 2 v = true /\ skipn 12 (v_withdrawal_credentials v) = elw_source_address r
  /\ active_at (epoch_of E s) v = true /\ v_exit_epoch v = FAR_FUTURE_EPOCH
  /\ v_activation_epoch v + SHARD_COMMITTEE_PERIOD E <= epoch_of E s.
(** amount 0 asks for a full exit, which must wait for the validator's queued partial withdrawals *)
Definition full_exit_granted (E : Env) (s : BeaconState) (r : ExecutionLayerWithdrawalRequest) (i : N) : Prop :=
  elw_amount r = 0 /\ pending_balance_of s i = 0 /\ exists v, request_authorised E s r i v.
(** any other amount asks for a partial withdrawal of the excess over the activation balance and over what is already queued *)
Definition partial_granted (E : Env) (s : BeaconState) (r : ExecutionLayerWithdrawalRequest) (i amount : N) : Prop :=
  elw_amount r <> 0 /\ lenN (pending_partial_withdrawals s) <> PENDING_PARTIAL_WITHDRAWALS_LIMIT E
  /\ exists v, request_authorised E s r i v /\ kind_is 2 v = true /\ MIN_ACTIVATION_BALANCE E <= v_effective_balance v
       /\ MIN_ACTIVATION_BALANCE E + pending_balance_of s i < balance_at s i
       /\ amount = N.min (elw_amount r) (balance_at s i - MIN_ACTIVATION_BALANCE E - pending_balance_of s i).
