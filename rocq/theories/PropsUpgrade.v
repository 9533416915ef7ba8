(** * Property theorems: fork upgrades (C38, C41) *)
From Verif Require Import Base BaseLemmas Types Ctx Presets Env Helpers HelpersAltair HelpersElectra Block Epoch Transition Upgrade StLemmas
  SpecCommon SpecShuffle SpecHelpers SpecElectra SpecOps SpecBlock SpecAtt SpecEpoch SpecUpgrade
  HelperProofs HelperProofs2 AttProofs UpgradeProofs Toy ToyCtx Toy2 Toy3 PropsAtt PropsEpoch.

(** ** C38 *)
Theorem C38_upgrade_to_altair : forall (E : Env) (s : BeaconState) (c : SyncCommittee),
  ctx_sane E -> ctx_sane_att E -> hash_wf (hash E) -> state_shape E s -> slot_small s ->
  (forall a, In a (previous_epoch_attestations s) -> pending_consistent E s a) -> get_next_sync_committee E s = Ok c ->
  exists s', upgrade_to_altair E s = Ok s'
    /\ keeps_history s s' /\ keeps_registry s s' /\ fork_recorded E s s' (ALTAIR_FORK_VERSION E)
    /\ current_epoch_participation s' = repeatN 0 (lenN (validators s)) /\ inactivity_scores s' = repeatN 0 (lenN (validators s))
    /\ current_sync_committee s' = c /\ next_sync_committee s' = c
    /\ lenN (previous_epoch_participation s') = lenN (validators s)
    /\ forall i p, nthN (previous_epoch_participation s') i = Some p -> forall k, N.testbit p k = true <->
         exists a, In a (previous_epoch_attestations s) /\ took_part E s a i /\ earns_after E Altair s (pa_data a) (pa_inclusion_delay a) k.
Proof. intros E s c Hc Ha Hw Hsh Hs Hp Hg. apply upgrade_altair_run; assumption. Qed.
(** whatever the pending attestations are, a state that comes out keeps everything else *)
Theorem C38_always_preserved : forall (E : Env) (s s' : BeaconState), ctx_sane E -> upgrade_to_altair E s = Ok s' ->
  keeps_history s s' /\ keeps_registry s s' /\ fork_recorded E s s' (ALTAIR_FORK_VERSION E)
  /\ current_epoch_participation s' = repeatN 0 (lenN (validators s)) /\ inactivity_scores s' = repeatN 0 (lenN (validators s))
  /\ current_sync_committee s' = next_sync_committee s'.
Proof.
  intros E s s' Hc H. unfold upgrade_to_altair in H. rewrite (current_epoch_ok E Hc) in H. cbn [rbind] in H. apply rbind_ok_inv in H as (post & Hp & H).
  unfold translate_participation in Hp. apply rbind_ok_inv in Hp as (part & _ & Hp). apply Ok_inj in Hp. subst post.
  apply rbind_ok_inv in H as (c & _ & H). apply Ok_inj in H. subst s'. repeat split.
Qed.
(** one vote of committee 0 of slot 9, included after one slot, on an eight-validator state at slot 12 *)
Definition upgrade_toy_votes : list PendingAttestation :=
  let s := tiny_state 8 12 in
  let com := match get_beacon_committee tiny s 9 0 with Ok c => c | _ => [] end in
  let root := fun sl => match recorded_root tiny s sl with Some r => r | None => [] end in
  let d := mkAttData 9 0 (root 9) (previous_justified_checkpoint s) (mkCheckpoint 2 (root 8)) in
  [mkPending (map (fun i => i =? 0) (rangeN (lenN com))) d 1 0].
Definition upgrade_toy : BeaconState := set_previous_epoch_attestations upgrade_toy_votes (tiny_state 8 12).
Example C38_toy : ctx_sane tiny /\ ctx_sane_att tiny /\ hash_wf (hash tiny) /\ state_shape tiny upgrade_toy /\ slot_small upgrade_toy
  /\ (forall a, In a (previous_epoch_attestations upgrade_toy) -> pending_consistent tiny upgrade_toy a)
  /\ lenN upgrade_toy_votes = 1
  /\ match upgrade_to_altair tiny upgrade_toy with
     | Ok s' => is_ok (get_next_sync_committee tiny upgrade_toy) = true /\ sumN (previous_epoch_participation s') = 7
     | _ => False end.
Proof.
  assert (Hsh : state_shape tiny upgrade_toy) by (exact (tiny_shape 8 12 ltac:(vm_compute; discriminate))).
  split; [exact tiny_sane|]. split; [exact tiny_sane_att|]. split; [exact toy_hash_wf|]. split; [exact Hsh|]. split; [vm_compute; reflexivity|]. split.
  - intros a [<-|[]]. split; [vm_compute; repeat split; try discriminate; auto|]. split; [vm_compute; reflexivity|]. split; [vm_compute; reflexivity|].
    exists (match get_beacon_committee tiny (tiny_state 8 12) 9 0 with Ok c => c | _ => [] end). split; [|vm_compute; reflexivity].
    apply (committee_spec tiny tiny_sane toy_hash_wf); [exact Hsh|vm_compute; reflexivity|vm_compute; reflexivity|vm_compute; reflexivity].
  - split; [vm_compute; reflexivity|]. vm_compute. auto.
Qed.

(** ** C41 *)
Theorem C41_upgrade_to_bellatrix : forall (E : Env) (s : BeaconState), ctx_sane E ->
  exists s', upgrade_to_bellatrix E s = Ok s' /\ keeps_history s s' /\ keeps_registry s s' /\ keeps_altair s s'
    /\ fork_recorded E s s' (BELLATRIX_FORK_VERSION E) /\ latest_execution_payload_header s' = default_payload_header E.
Proof. intros E s Hc. unfold upgrade_to_bellatrix. rewrite (current_epoch_ok E Hc). cbn [rbind]. eexists. split; [reflexivity|]. repeat split. Qed.
Theorem C41_upgrade_to_capella : forall (E : Env) (s : BeaconState), ctx_sane E ->
  exists s', upgrade_to_capella E s = Ok s' /\ keeps_history s s' /\ keeps_registry s s' /\ keeps_altair s s'
    /\ fork_recorded E s s' (CAPELLA_FORK_VERSION E)
    /\ keeps_header (latest_execution_payload_header s) (latest_execution_payload_header s')
    /\ eph_withdrawals_root (latest_execution_payload_header s') = zero32
    /\ next_withdrawal_index s' = 0 /\ next_withdrawal_validator_index s' = 0 /\ historical_summaries s' = [].
Proof. intros E s Hc. unfold upgrade_to_capella. rewrite (current_epoch_ok E Hc). cbn [rbind]. eexists. split; [reflexivity|]. repeat split. Qed.
Theorem C41_upgrade_to_deneb : forall (E : Env) (s : BeaconState), ctx_sane E ->
  exists s', upgrade_to_deneb E s = Ok s' /\ keeps_history s s' /\ keeps_registry s s' /\ keeps_altair s s' /\ keeps_capella s s'
    /\ fork_recorded E s s' (DENEB_FORK_VERSION E)
    /\ keeps_header (latest_execution_payload_header s) (latest_execution_payload_header s')
    /\ eph_withdrawals_root (latest_execution_payload_header s') = eph_withdrawals_root (latest_execution_payload_header s)
    /\ eph_blob_gas_used (latest_execution_payload_header s') = 0 /\ eph_excess_blob_gas (latest_execution_payload_header s') = 0.
Proof. intros E s Hc. unfold upgrade_to_deneb. rewrite (current_epoch_ok E Hc). cbn [rbind]. eexists. split; [reflexivity|]. repeat split. Qed.
(** electra also moves balances into the deposit queue *)
Theorem C41_upgrade_to_electra : forall (E : Env) (s : BeaconState),
  ctx_sane E -> ctx_sane_electra E -> slot_small s -> lenN (balances s) = lenN (validators s) -> active_balance_fits E s ->
  (forall v, In v (validators s) -> v_exit_epoch v = FAR_FUTURE_EPOCH \/ v_exit_epoch v < 2 ^ 63) ->
  exists s' pre, upgrade_to_electra E s = Ok s' /\ is_preactivation_order s pre
    /\ keeps_history s s' /\ keeps_altair s s' /\ keeps_capella s s' /\ fork_recorded E s s' (ELECTRA_FORK_VERSION E)
    /\ (let h := latest_execution_payload_header s in let h' := latest_execution_payload_header s' in
        keeps_header h h' /\ eph_withdrawals_root h' = eph_withdrawals_root h
        /\ eph_blob_gas_used h' = eph_blob_gas_used h /\ eph_excess_blob_gas h' = eph_excess_blob_gas h)
    /\ validators s' = map upgraded_record (validators s)
    /\ (lenN (balances s') = lenN (balances s) /\ forall i, i < lenN (validators s) -> nthN (balances s') i = Some (upgraded_balance E s i))
    /\ pending_balance_deposits s' = map (fun i => mkPBD i (balance_at s i)) pre
         ++ map (fun i => mkPBD i (balance_at s i - MIN_ACTIVATION_BALANCE E)) (with_excess E s)
    /\ pending_partial_withdrawals s' = [] /\ pending_consolidations s' = []
    /\ deposit_receipts_start_index s' = 2 ^ 64 - 1 /\ deposit_balance_to_consume s' = 0
    /\ exit_balance_to_consume s' = exit_churn E s /\ is_after_exits E s (earliest_exit_epoch s')
    /\ consolidation_balance_to_consume s' = consolidation_churn E s /\ earliest_consolidation_epoch s' = earliest_exit E s.
Proof. intros E s Hc Hel Hs Hl Hab Hex. apply upgrade_electra_run; assumption. Qed.
(** no balance is lost or created: what leaves the balances is queued for the same validator *)
Theorem C41_electra_conserves : forall (E : Env) (s s' : BeaconState) (i : N),
  ctx_sane E -> ctx_sane_electra E -> slot_small s -> lenN (balances s) = lenN (validators s) -> active_balance_fits E s ->
  (forall v, In v (validators s) -> v_exit_epoch v = FAR_FUTURE_EPOCH \/ v_exit_epoch v < 2 ^ 63) ->
  upgrade_to_electra E s = Ok s' -> i < lenN (validators s) ->
  balance_at s' i + queued_for (pending_balance_deposits s') i = balance_at s i.
Proof.
  intros E s s' i Hc Hel Hs Hl Hab Hex H Hi. destruct (upgrade_electra_run E Hc s Hs Hl Hab Hex) as (t & pre & H0 & Hpre & _ & _ & _ & _ & _ & _ & (_ & Hb) & Hp & _).
  rewrite H in H0. apply Ok_inj in H0. subst t. rewrite Hp, queued_app, !queued_map.
  - unfold balance_at at 1. rewrite (Hb i Hi). unfold upgraded_balance.
    assert (Hm : memN i pre = not_activated s i) by (apply eq_true_iff_eq; rewrite memN_true; apply Hpre). rewrite Hm.
    assert (Hw : memN i (with_excess E s) = is_compounding s i && negb (not_activated s i) && (MIN_ACTIVATION_BALANCE E <? balance_at s i)).
    { apply eq_true_iff_eq. rewrite memN_true. unfold with_excess. rewrite filter_In, In_rangeN. tauto. }
    rewrite Hw. destruct (not_activated s i), (is_compounding s i); cbn [andb negb]; try lia.
    destruct (N.ltb_spec (MIN_ACTIVATION_BALANCE E) (balance_at s i)); lia.
  - unfold with_excess. apply NoDup_filter, NoDup_rangeN.
  - destruct Hpre as [Hpre _]. clear - Hpre. induction Hpre as [|x l _ IH Hf]; [constructor|]. constructor; [|exact IH]. intros Hx.
    rewrite Forall_forall in Hf. specialize (Hf x Hx). unfold queued_before in Hf. lia.
Qed.
(** validator 1 compounds and has excess, 2 and 3 wait for activation, 0 is leaving *)
Definition electra_upgrade_toy : BeaconState :=
  let V := fun i k el ac ex => mkValidator (toy_pk i) (k :: repeat 0 31) 32000000000 false el ac ex FAR_FUTURE_EPOCH in let F := FAR_FUTURE_EPOCH in
  set_validators [V 0 0 0 0 9; V 1 2 0 0 F; V 2 1 3 F F; V 3 1 2 F F]
  (set_balances [31000000000; 40000000000; 5; 6] (tiny_state 4 13)).
Example C41_toy : slot_small electra_upgrade_toy /\ active_balance_fits tiny electra_upgrade_toy
  /\ (forall v, In v (validators electra_upgrade_toy) -> v_exit_epoch v = FAR_FUTURE_EPOCH \/ v_exit_epoch v < 2 ^ 63)
  /\ match upgrade_to_electra tiny electra_upgrade_toy with
     | Ok s' => pending_balance_deposits s' = [mkPBD 3 6; mkPBD 2 5; mkPBD 1 8000000000] /\ balances s' = [31000000000; 32000000000; 0; 0] /\ earliest_exit_epoch s' = 10
     | _ => False end.
Proof.
  split; [vm_compute; reflexivity|]. split; [vm_compute; reflexivity|]. split.
  - apply (all_of (fun v => (v_exit_epoch v =? FAR_FUTURE_EPOCH) || (v_exit_epoch v <? 2 ^ 63))); [|vm_compute; reflexivity].
    intros v Hv. apply orb_true_iff in Hv as [Hv|Hv]; [left; apply N.eqb_eq; exact Hv|right; apply N.ltb_lt; exact Hv].
  - vm_compute. auto.
Qed.

Print Assumptions C38_upgrade_to_altair.
Print Assumptions C38_always_preserved.
Print Assumptions C41_upgrade_to_bellatrix.
Print Assumptions C41_upgrade_to_capella.
Print Assumptions C41_upgrade_to_deneb.
Print Assumptions C41_upgrade_to_electra.
Print Assumptions C41_electra_conserves.
