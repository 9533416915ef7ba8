(** * Property theorems: what every reachable state satisfies (C89, C90, C91)

    A state is reachable if it comes out of [initialize_beacon_state_from_eth1] through any sequence of calls: block imports, slot, block and
    epoch processing, upgrades, each continued from the state the call left behind, whether it succeeded or not (SpecHistory). *)
From Verif Require Import Base BaseLemmas Types Ctx Env Presets Helpers HelpersAltair HelpersElectra Block Epoch Transition Upgrade Genesis Executor StLemmas
  SpecCommon SpecShuffle SpecHelpers SpecElectra SpecOps SpecBlock SpecAtt SpecFlow SpecFinality SpecSlots SpecEpoch SpecRegistry SpecQueues SpecPhase0 SpecTotal SpecCrash
  SpecHistory SpecReach Reach ReachHistory ReachShape HelperProofs HelperProofs2 FlowProofs BlockProofs HistoryProofs
  PropsInvariants PropsAtt PropsEpoch PropsTotal PropsQueues PropsCrash PropsCrash2 PropsCrash3 Toy ToyCtx Toy2 Toy3.

Definition reachable (E : Env) (g : Fork) (s : BeaconState) : Prop :=
  exists f block_hash timestamp deposits header s0,
    initialize_beacon_state_from_eth1 E f block_hash timestamp deposits header = Ok s0 /\ history E (f, s0) (g, s).

(** ** C89: the life of a validator *)
Theorem C89_lifecycle : forall (E : Env) (g : Fork) (s : BeaconState) (v : Validator),
  1 <= MIN_VALIDATOR_WITHDRAWABILITY_DELAY E -> chk E = true -> reachable E g s -> In v (validators s) -> lifecycle v.
Proof.
  intros E g s v Hd Hc (f & bh & ts & ds & h & s0 & Hg & Hh). apply (genesis_inv E Hd) in Hg.
  exact (n_life _ _ _ (history_inv E Hd (f, s0) (g, s) Hh Hg) Hc v).
Qed.
Theorem C89_checkpoints : forall (E : Env) (g : Fork) (s : BeaconState),
  1 <= MIN_VALIDATOR_WITHDRAWABILITY_DELAY E -> chk E = true -> reachable E g s -> checkpoints_past E s.
Proof.
  intros E g s Hd Hc (f & bh & ts & ds & h & s0 & Hg & Hh). apply (genesis_inv E Hd) in Hg.
  exact (n_past _ _ _ (history_inv E Hd (f, s0) (g, s) Hh Hg) Hc).
Qed.
(** from any state that is well-formed already, such as a checkpoint state *)
Theorem C89_from : forall (E : Env) (f g : Fork) (s s' : BeaconState),
  1 <= MIN_VALIDATOR_WITHDRAWABILITY_DELAY E -> history E (f, s) (g, s') -> well_formed E f s -> well_formed E g s'.
Proof. intros E f g s s' Hd Hh. exact (history_inv E Hd (f, s) (g, s') Hh). Qed.

(** ** C90: no reference dangles, and both sync committees are complete; in both builds *)
Theorem C90_references : forall (E : Env) (g : Fork) (s : BeaconState),
  1 <= MIN_VALIDATOR_WITHDRAWABILITY_DELAY E -> reachable E g s -> references_valid s.
Proof.
  intros E g s Hd (f & bh & ts & ds & h & s0 & Hg & Hh). apply (genesis_inv E Hd) in Hg.
  exact (n_refs _ _ _ (history_inv E Hd (f, s0) (g, s) Hh Hg)).
Qed.
Theorem C90_committees : forall (E : Env) (g : Fork) (s : BeaconState),
  1 <= MIN_VALIDATOR_WITHDRAWABILITY_DELAY E -> reachable E g s -> g <> Phase0 ->
  committee_valid E s (current_sync_committee s) /\ committee_valid E s (next_sync_committee s).
Proof.
  intros E g s Hd (f & bh & ts & ds & h & s0 & Hg & Hh). apply (genesis_inv E Hd) in Hg.
  exact (n_sync _ _ _ (history_inv E Hd (f, s0) (g, s) Hh Hg)).
Qed.
Theorem C90_vectors : forall (E : Env) (g : Fork) (s : BeaconState), reachable E g s -> vectors_sized E s.
Proof.
  intros E g s (f & bh & ts & ds & h & s0 & Hg & Hh). apply genesis_sized in Hg. exact (history_sized E (f, s0) (g, s) Hh Hg).
Qed.
Theorem C90_effective_balances : forall (E : Env) (g : Fork) (s : BeaconState), caps_sane E -> reachable E g s -> effective_capped E g s.
Proof.
  intros E g s Hc (f & bh & ts & ds & h & s0 & Hg & Hh). apply (genesis_capped E Hc) in Hg. exact (history_capped E Hc (f, s0) (g, s) Hh Hg).
Qed.
Theorem C90_networks : forall c, In c [ctx_mainnet; ctx_minimal; ctx_goerli; ctx_sepolia; ctx_holesky; ctx_hoodi] ->
  caps_sane c /\ 1 <= MIN_VALIDATOR_WITHDRAWABILITY_DELAY c.
Proof. intros c H. repeat (destruct H as [<-|H]; [vm_compute; repeat split; congruence|]). destruct H. Qed.

(** ** C91: a block never crashes a node whose state is reachable: of the hypotheses of C81, C82 and C84 only numbers remain *)
Lemma reachable_bounds (E : Env) g s : 1 <= MIN_VALIDATOR_WITHDRAWABILITY_DELAY E -> caps_sane E -> reachable E g s -> realistic E g s -> block_bounds E g s.
Proof.
  intros Hd Hc Hr R. pose proof (C90_vectors E g s Hr) as (V1 & V2 & V3 & V4 & V5). pose proof (C90_effective_balances E g s Hc Hr) as Hcap.
  pose proof (C90_references E g s Hd Hr) as Href.
  assert (Hal : registry_aligned g s) by (destruct Hr as (f & bh & ts & ds & h & s0 & Hg & Hh); exact (proj1 (C28_registry_aligned E f g bh ts ds h s0 s Hg Hh))).
  destruct R as [R1 R2 R3 R4 R5 R6 R7 R8 R9 R10]. constructor; try assumption.
  - repeat split; try assumption. lia.
  - lia.
  - intros v Hv. destruct (Hcap v Hv) as [_ H]. unfold balance_cap in H. exact H.
  - destruct (chk E) eqn:Hchk; [|apply R10; reflexivity]. intros v Hv _. exact (lc_queued v (C89_lifecycle E g s v Hd Hchk Hr Hv)).
  - intros Hf. destruct (C90_committees E g s Hd Hr Hf) as [[H1 H2] _]. split; [exact H2|lia].
  - intros _. split; [|exact R8]. apply (rv_sweep s Href). intros H0. rewrite H0 in R1. change (lenN (@nil Validator)) with 0 in R1. lia.
Qed.
Lemma reachable_queues (E : Env) g s : 1 <= MIN_VALIDATOR_WITHDRAWABILITY_DELAY E -> reachable E g s -> realistic_queues s -> queues_sound s.
Proof.
  intros Hd Hr [[Q1 Q2] [Q3 Q4] Q5 Q6]. pose proof (C90_references E g s Hd Hr) as Href. unfold queues_sound, pending_sound.
  split; [exact Q1|]. split; [exact Q2|]. split; [split; [apply (rv_withdrawals s Href)|exact Q6]|]. auto.
Qed.
Theorem C91_block : forall (E : Env) (g : Fork) (b : BeaconBlock) (s : BeaconState),
  crash_config E -> caps_sane E -> 1 <= MIN_VALIDATOR_WITHDRAWABILITY_DELAY E -> g <> Electra ->
  reachable E g s -> realistic E g s -> block_fits (bk_body b) -> vote_keeps_deposits E (bk_body b) s ->
  fst (process_block E g b s) <> Panic.
Proof. intros E g b s C1 C2 C3 Hg Hr R. apply C81_block_no_panic; try assumption. apply reachable_bounds; assumption. Qed.
Theorem C91_import_same_epoch : forall (E : Env) (g : Fork) (validate : bool) (sb : SignedBeaconBlock) (s : BeaconState),
  crash_config E -> caps_sane E -> 1 <= MIN_VALIDATOR_WITHDRAWABILITY_DELAY E -> g <> Electra ->
  reachable E g s -> realistic E g s -> block_fits (bk_body (sb_message sb)) -> vote_keeps_deposits E (bk_body (sb_message sb)) s ->
  bk_slot (sb_message sb) < next_epoch_start E s -> bk_slot (sb_message sb) < 2 ^ 56 ->
  fst (state_transition E g validate sb s) <> Panic.
Proof. intros E g v sb s C1 C2 C3 Hg Hr R. apply C84_same_epoch; try assumption. apply reachable_bounds; assumption. Qed.
(** electra: without overflow checks for all blocks, with them for blocks without consolidations (C57, C82) *)
Theorem C91_import_same_epoch_electra : forall (E : Env) (validate : bool) (sb : SignedBeaconBlock) (s : BeaconState),
  crash_config E -> caps_sane E -> 1 <= MIN_VALIDATOR_WITHDRAWABILITY_DELAY E -> (chk E = true -> bb_consolidations (bk_body (sb_message sb)) = []) ->
  reachable E Electra s -> realistic E Electra s -> realistic_queues s ->
  block_fits (bk_body (sb_message sb)) -> requests_fit (bk_body (sb_message sb)) ->
  bk_slot (sb_message sb) < next_epoch_start E s -> bk_slot (sb_message sb) < 2 ^ 56 ->
  fst (state_transition E Electra validate sb s) <> Panic.
Proof.
  intros E v sb s C1 C2 C3 Hc Hr R Q. apply C84_same_epoch_electra; try assumption; [apply reachable_bounds; assumption|].
  apply (reachable_queues E Electra); assumption.
Qed.

(** ** Without overflow checks the order of epochs can be lost: a block with a consolidation (C57) makes the source withdrawable before it exits *)
Definition late_toy : BeaconState := set_slot 1200 churn_toy.
Definition late_block : BeaconBlock :=
  let b := tiny_block late_toy 0 in let body := bk_body b in
  mkBlock (bk_slot b) (bk_proposer_index b) (bk_parent_root b) (bk_state_root b)
    (mkBody (bb_randao_reveal body) (bb_eth1_data body) (bb_graffiti body) [] [] [] [] [] (bb_sync_aggregate body) (bb_execution_payload body) [] [] [consolidation_op]).
Definition committee_check (E : Env) (s : BeaconState) (c : SyncCommittee) : bool :=
  (lenN (sc_public_keys c) =? SYNC_COMMITTEE_SIZE E) && forallb (fun pk => existsb (fun v => bytes_eqb (v_public_key v) pk) (validators s)) (sc_public_keys c).
Lemma committee_check_ok E s c : committee_check E s c = true -> committee_valid E s c.
Proof.
  intros H. apply andb_prop in H as [H1 H2]. split; [apply N.eqb_eq; exact H1|]. intros pk Hpk. rewrite forallb_forall in H2. specialize (H2 pk Hpk).
  apply existsb_exists in H2 as (v & Hv & He). apply bytes_eqb_iff in He. exists v. auto.
Qed.
Definition lifecycle_check (v : Validator) : bool :=
  (v_activation_eligibility_epoch v <=? v_activation_epoch v) && (v_activation_epoch v <=? v_exit_epoch v) && (v_exit_epoch v <=? v_withdrawable_epoch v)
  && (v_withdrawable_epoch v <=? FAR_FUTURE_EPOCH) && ((v_exit_epoch v =? FAR_FUTURE_EPOCH) || (v_activation_epoch v <? v_exit_epoch v))
  && (negb (v_slashed v) || negb (v_exit_epoch v =? FAR_FUTURE_EPOCH)).
Lemma lifecycle_check_ok v : lifecycle_check v = true <-> lifecycle v.
Proof.
  unfold lifecycle_check. split.
  - intros H. repeat (apply andb_prop in H as [H ?]). constructor; try lia; intros; destruct (v_slashed v); cbn in *; lia || discriminate.
  - intros [L1 L2 L3 L4 L5 L6]. destruct (v_slashed v); cbn; lia.
Qed.
Theorem C89_release_refuted : exists (E : Env) (s s' : BeaconState) (v : Validator),
  chk E = false /\ well_formed E Electra s /\ (forall w, In w (validators s) -> lifecycle w) /\ checkpoints_past E s
  /\ history E (Electra, s) (Electra, s') /\ In v (validators s') /\ v_withdrawable_epoch v < v_exit_epoch v /\ v_exit_epoch v <> FAR_FUTURE_EPOCH.
Proof.
  exists tiny_release, late_toy, (snd (process_block tiny_release Electra late_block late_toy)).
  assert (Hl : forall w, In w (validators late_toy) -> lifecycle w).
  { intros w Hw. apply lifecycle_check_ok. revert w Hw. apply forallb_forall. vm_compute. reflexivity. }
  assert (Hv : exists v, nthN (validators (snd (process_block tiny_release Electra late_block late_toy))) 3 = Some v /\ v_exit_epoch v = 305 /\ v_withdrawable_epoch v = 255).
  { eexists. split; [vm_compute; reflexivity|]. split; reflexivity. }
  destruct Hv as (v & Hv & H1 & H2). exists v.
  split; [reflexivity|]. split.
  - assert (Hu : chk tiny_release = true -> False) by (intros H; vm_compute in H; discriminate H). constructor; try (intros H; destruct (Hu H)).
    + vm_compute. reflexivity.
    + constructor; [intros x Hx; vm_compute in Hx; contradiction..|]. intros _. vm_compute. reflexivity.
    + intros H. vm_compute in H. discriminate H.
    + intros _. split; apply committee_check_ok; vm_compute; reflexivity.
  - split; [exact Hl|]. split; [unfold checkpoints_past; vm_compute; repeat split; discriminate|].
    split; [apply hist_call; eapply call_block; apply surjective_pairing|]. split; [eapply nthN_In; exact Hv|]. rewrite H1, H2. split; [reflexivity|discriminate].
Qed.

(** ** Examples *)
(** a genesis state, five slots and an epoch boundary later; the first validator is active, the second is not funded *)
Definition reach_toy : BeaconState := snd (process_slots tiny Altair 5 tiny_genesis).
Example C89_example :
  1 <= MIN_VALIDATOR_WITHDRAWABILITY_DELAY tiny /\ chk tiny = true /\ reachable tiny Altair reach_toy
  /\ map v_activation_epoch (validators reach_toy) = [0; FAR_FUTURE_EPOCH] /\ slot reach_toy = 5.
Proof.
  split; [vm_compute; discriminate|]. split; [reflexivity|]. split; [|vm_compute; split; reflexivity].
  exists Altair, zero32, 5, [toy_deposit 0 32000000000; toy_deposit 1 16000000000; toy_deposit 0 1000000000], None, tiny_genesis.
  split; [vm_compute; reflexivity|]. apply hist_call. eapply call_slots. apply surjective_pairing.
Qed.
(** a validator that exits: the lifecycle is not only the trivial one *)
Example C89_exit_example : forallb lifecycle_check (validators toy_ejectable) = true
  /\ forallb lifecycle_check (validators (snd (process_slots tiny Phase0 4 toy_ejectable))) = true
  /\ map v_exit_epoch (validators (snd (process_slots tiny Phase0 4 toy_ejectable))) = [FAR_FUTURE_EPOCH; FAR_FUTURE_EPOCH; 5; FAR_FUTURE_EPOCH].
Proof. vm_compute. repeat split. Qed.
Lemma tiny_caps : caps_sane tiny.
Proof. vm_compute. repeat split; discriminate. Qed.
Example C90_example : caps_sane tiny /\ reachable tiny Altair reach_toy /\ lenN (sc_public_keys (current_sync_committee reach_toy)) = 4
  /\ map v_effective_balance (validators reach_toy) = [32000000000; 16000000000].
Proof. split; [exact tiny_caps|]. split; [apply C89_example|]. vm_compute. split; reflexivity. Qed.
Lemma reach_toy_realistic : realistic tiny Altair reach_toy.
Proof.
  constructor.
  - vm_compute. split; [discriminate|reflexivity].
  - vm_compute. reflexivity.
  - vm_compute. reflexivity.
  - apply (all_of (fun x => x <? 2 ^ 60)); [intros x Hx; apply N.ltb_lt; exact Hx|vm_compute; reflexivity].
  - apply (all_of (fun x => x <? 2 ^ 60)); [intros x Hx; apply N.ltb_lt; exact Hx|vm_compute; reflexivity].
  - refine (all_of (fun v => v_exit_epoch v =? FAR_FUTURE_EPOCH) (fun v => v_exit_epoch v <> FAR_FUTURE_EPOCH -> v_exit_epoch v < 2 ^ 61) _ _ _); [|vm_compute; reflexivity].
    intros v Hv Hne. apply N.eqb_eq in Hv. contradiction.
  - vm_compute. reflexivity.
  - vm_compute. reflexivity.
  - vm_compute. repeat split; congruence.
  - intros H. vm_compute in H. discriminate H.
Qed.
(** a block that is accepted and one with the wrong proposer *)
Example C91_example :
  crash_config tiny /\ caps_sane tiny /\ reachable tiny Altair reach_toy /\ realistic tiny Altair reach_toy
  /\ block_fits (bk_body (tiny_block reach_toy 0)) /\ vote_keeps_deposits tiny (bk_body (tiny_block reach_toy 0)) reach_toy
  /\ fst (process_block tiny Altair (tiny_block reach_toy 0) reach_toy) = Ok tt
  /\ fst (process_block tiny Altair (tiny_block reach_toy 1) reach_toy) = Err EHdrProposerIndexMismatch.
Proof.
  split; [exact tiny_crash_config|]. split; [exact tiny_caps|]. split; [apply C89_example|]. split; [exact reach_toy_realistic|].
  split; [repeat split; vm_compute; congruence|]. split; [intros _; vm_compute; discriminate|]. split; vm_compute; reflexivity.
Qed.
(** an electra genesis: reachable, with empty queues *)
Definition electra_genesis : BeaconState :=
  match initialize_beacon_state_from_eth1 tiny Electra zero32 5 [toy_deposit 0 32000000000; toy_deposit 1 16000000000] None with Ok s => s | _ => tiny_state 0 0 end.
Example C91_electra_example : reachable tiny Electra electra_genesis /\ realistic tiny Electra electra_genesis /\ realistic_queues electra_genesis
  /\ bb_consolidations (bk_body (tiny_block electra_genesis 0)) = [] /\ requests_fit (bk_body (tiny_block electra_genesis 0)).
Proof.
  split; [exists Electra, zero32, 5, [toy_deposit 0 32000000000; toy_deposit 1 16000000000], None, electra_genesis; split; [vm_compute; reflexivity|apply hist_refl]|].
  split; [constructor|].
  - vm_compute. split; [discriminate|reflexivity].
  - vm_compute. reflexivity.
  - vm_compute. reflexivity.
  - apply (all_of (fun x => x <? 2 ^ 60)); [intros x Hx; apply N.ltb_lt; exact Hx|vm_compute; reflexivity].
  - apply (all_of (fun x => x <? 2 ^ 60)); [intros x Hx; apply N.ltb_lt; exact Hx|vm_compute; reflexivity].
  - refine (all_of (fun v => v_exit_epoch v =? FAR_FUTURE_EPOCH) (fun v => v_exit_epoch v <> FAR_FUTURE_EPOCH -> v_exit_epoch v < 2 ^ 61) _ _ _); [|vm_compute; reflexivity].
    intros v Hv Hne. apply N.eqb_eq in Hv. contradiction.
  - vm_compute. reflexivity.
  - vm_compute. reflexivity.
  - vm_compute. repeat split; congruence.
  - intros H. vm_compute in H. discriminate H.
  - split; [constructor|].
    + vm_compute. split; reflexivity.
    + vm_compute. split; reflexivity.
    + vm_compute. discriminate.
    + intros i. vm_compute. reflexivity.
    + split; [reflexivity|]. repeat split; vm_compute; congruence.
Qed.

Print Assumptions C89_lifecycle.
Print Assumptions C89_checkpoints.
Print Assumptions C89_from.
Print Assumptions C90_references.
Print Assumptions C90_committees.
Print Assumptions C90_vectors.
Print Assumptions C90_effective_balances.
Print Assumptions C90_networks.
Print Assumptions C91_block.
Print Assumptions C91_import_same_epoch.
Print Assumptions C91_import_same_epoch_electra.
Print Assumptions C89_release_refuted.
