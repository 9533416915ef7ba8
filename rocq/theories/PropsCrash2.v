(** * Property theorems: no electra block crashes the node (C82)

    Electra adds withdrawal requests, deposit receipts, pending withdrawals and consolidations to a block.  The bounds are those of
    C81 plus [queues_sound] (the queues of the state) and [requests_fit] (the SSZ limits of the new operations).  In a build with
    overflow checks the theorem covers blocks without consolidations: the last theorem shows that a block with a valid one
    crashes there (see C57 for the general statement), while the release build accepts it. *)
From Verif Require Import Base BaseLemmas Types Ctx Env Presets Helpers HelpersAltair HelpersElectra Block Epoch Transition StLemmas
  SpecCommon SpecShuffle SpecHelpers SpecElectra SpecOps SpecBlock SpecAtt SpecFlow SpecFinality SpecSlots SpecEpoch SpecRegistry SpecQueues SpecPhase0 SpecTotal SpecCrash
  HelperProofs HelperProofs2 FlowProofs BlockProofs PropsAtt PropsEpoch PropsTotal PropsQueues CrashProofs CrashElectra PropsCrash Toy ToyCtx Toy2 Toy3.

(** a build without overflow checks never crashes on an electra block *)
Theorem C82_release_no_panic : forall (E : Env) (b : BeaconBlock) (s : BeaconState),
  crash_config E -> chk E = false -> block_bounds E Electra s -> queues_sound s -> block_fits (bk_body b) -> requests_fit (bk_body b) ->
  fst (process_block E Electra b s) <> Panic.
Proof. intros E b s (C1 & C2 & C3 & C4 & C5 & C6 & C7 & C8 & C9) Hc. intros. apply block_safe_electra; try assumption. rewrite Hc. discriminate. Qed.
(** a build with overflow checks does not crash on a block without consolidations *)
Theorem C82_checked_no_panic_partial : forall (E : Env) (b : BeaconBlock) (s : BeaconState),
  crash_config E -> bb_consolidations (bk_body b) = [] -> block_bounds E Electra s -> queues_sound s -> block_fits (bk_body b) -> requests_fit (bk_body b) ->
  fst (process_block E Electra b s) <> Panic.
Proof. intros E b s (C1 & C2 & C3 & C4 & C5 & C6 & C7 & C8 & C9) Hc. intros. apply block_safe_electra; try assumption. intros _. exact Hc. Qed.

(** ** Examples *)
Lemma tiny_release_crash_config : crash_config tiny_release.
Proof. exact tiny_crash_config. Qed.
Lemma crash_toy_queues : queues_sound crash_toy.
Proof. split; [vm_compute; reflexivity|]. split; [vm_compute; reflexivity|]. split; [repeat split; intros x Hx; vm_compute in Hx; contradiction|]. repeat split; vm_compute; congruence. Qed.
Definition consolidation_block : BeaconBlock :=
  let b := tiny_block churn_toy 2 in let body := bk_body b in
  mkBlock (bk_slot b) (bk_proposer_index b) (bk_parent_root b) (bk_state_root b)
    (mkBody (bb_randao_reveal body) (bb_eth1_data body) (bb_graffiti body) [] [] [] [] [] (bb_sync_aggregate body) (bb_execution_payload body) [] [] [consolidation_op]).
Lemma churn_toy_bounds : block_bounds tiny Electra churn_toy /\ block_bounds tiny_release Electra churn_toy.
Proof.
  split; constructor.
  - unfold state_shape. vm_compute. repeat split; congruence.
  - vm_compute. reflexivity.
  - vm_compute. reflexivity.
  - split; [reflexivity|]. intros _. repeat split; reflexivity.
  - apply (all_of (fun v => v_effective_balance v <=? MAX_EFFECTIVE_BALANCE_ELECTRA tiny)); [intros x Hx; apply N.leb_le; exact Hx|vm_compute; reflexivity].
  - vm_compute. reflexivity.
  - apply (all_of (fun x => x <? 2 ^ 60)); [intros x Hx; apply N.ltb_lt; exact Hx|vm_compute; reflexivity].
  - apply (all_of (fun x => x <? 2 ^ 60)); [intros x Hx; apply N.ltb_lt; exact Hx|vm_compute; reflexivity].
  - refine (all_of (fun v => v_exit_epoch v =? FAR_FUTURE_EPOCH) (fun v => v_exit_epoch v <> FAR_FUTURE_EPOCH -> v_exit_epoch v < 2 ^ 61) _ _ _); [|vm_compute; reflexivity].
    intros v Hv Hne. apply N.eqb_eq in Hv. contradiction.
  - refine (all_of (fun v => v_activation_eligibility_epoch v <=? v_activation_epoch v) (fun v => v_activation_epoch v <> FAR_FUTURE_EPOCH -> v_activation_eligibility_epoch v <= v_activation_epoch v) _ _ _); [|vm_compute; reflexivity].
    intros v Hv _. apply N.leb_le. exact Hv.
  - intros _. split; [|vm_compute; discriminate].
    refine (all_of (fun pk => existsb (fun v => bytes_eqb (v_public_key v) pk) (validators churn_toy)) _ _ _ _); [|vm_compute; reflexivity].
    intros pk Hpk. apply existsb_exists in Hpk as (v & Hv & He). apply bytes_eqb_iff in He. exists v. auto.
  - vm_compute. reflexivity.
  - intros _. split; vm_compute; reflexivity.
  - repeat split; vm_compute; congruence.
  - unfold state_shape. vm_compute. repeat split; congruence.
  - vm_compute. reflexivity.
  - vm_compute. reflexivity.
  - split; [reflexivity|]. intros _. repeat split; reflexivity.
  - apply (all_of (fun v => v_effective_balance v <=? MAX_EFFECTIVE_BALANCE_ELECTRA tiny_release)); [intros x Hx; apply N.leb_le; exact Hx|vm_compute; reflexivity].
  - vm_compute. reflexivity.
  - apply (all_of (fun x => x <? 2 ^ 60)); [intros x Hx; apply N.ltb_lt; exact Hx|vm_compute; reflexivity].
  - apply (all_of (fun x => x <? 2 ^ 60)); [intros x Hx; apply N.ltb_lt; exact Hx|vm_compute; reflexivity].
  - refine (all_of (fun v => v_exit_epoch v =? FAR_FUTURE_EPOCH) (fun v => v_exit_epoch v <> FAR_FUTURE_EPOCH -> v_exit_epoch v < 2 ^ 61) _ _ _); [|vm_compute; reflexivity].
    intros v Hv Hne. apply N.eqb_eq in Hv. contradiction.
  - refine (all_of (fun v => v_activation_eligibility_epoch v <=? v_activation_epoch v) (fun v => v_activation_epoch v <> FAR_FUTURE_EPOCH -> v_activation_eligibility_epoch v <= v_activation_epoch v) _ _ _); [|vm_compute; reflexivity].
    intros v Hv _. apply N.leb_le. exact Hv.
  - intros _. split; [|vm_compute; discriminate].
    refine (all_of (fun pk => existsb (fun v => bytes_eqb (v_public_key v) pk) (validators churn_toy)) _ _ _ _); [|vm_compute; reflexivity].
    intros pk Hpk. apply existsb_exists in Hpk as (v & Hv & He). apply bytes_eqb_iff in He. exists v. auto.
  - vm_compute. reflexivity.
  - intros _. split; vm_compute; reflexivity.
  - repeat split; vm_compute; congruence.
Qed.
Lemma churn_toy_queues : queues_sound churn_toy.
Proof. split; [vm_compute; reflexivity|]. split; [vm_compute; reflexivity|]. split; [repeat split; intros x Hx; vm_compute in Hx; contradiction|]. repeat split; vm_compute; congruence. Qed.
(** an accepted block and a rejected one without consolidations, in the build with overflow checks *)
Example C82_example :
  crash_config tiny /\ block_bounds tiny Electra crash_toy /\ queues_sound crash_toy
  /\ block_fits (bk_body (tiny_block crash_toy 1)) /\ requests_fit (bk_body (tiny_block crash_toy 1))
  /\ fst (process_block tiny Electra (tiny_block crash_toy 1) crash_toy) = Ok tt
  /\ fst (process_block tiny Electra (tiny_block crash_toy 2) crash_toy) = Err EHdrProposerIndexMismatch.
Proof.
  split; [exact tiny_crash_config|]. split; [apply crash_toy_bounds|]. split; [exact crash_toy_queues|].
  split; [repeat split; vm_compute; congruence|]. split; [repeat split; vm_compute; congruence|]. split; vm_compute; reflexivity.
Qed.
(** the block with a valid consolidation: the release build accepts it *)
Example C82_release_example :
  crash_config tiny_release /\ chk tiny_release = false /\ block_bounds tiny_release Electra churn_toy /\ queues_sound churn_toy
  /\ block_fits (bk_body consolidation_block) /\ requests_fit (bk_body consolidation_block)
  /\ fst (process_block tiny_release Electra consolidation_block churn_toy) = Ok tt.
Proof.
  split; [exact tiny_release_crash_config|]. split; [reflexivity|]. split; [apply churn_toy_bounds|]. split; [exact churn_toy_queues|].
  split; [repeat split; vm_compute; congruence|]. split; [repeat split; vm_compute; congruence|]. vm_compute; reflexivity.
Qed.
(** and it crashes the build with overflow checks *)
Theorem C82_consolidation_block_refuted : exists (E : Env) (b : BeaconBlock) (s : BeaconState),
  crash_config E /\ chk E = true /\ block_bounds E Electra s /\ queues_sound s /\ block_fits (bk_body b) /\ requests_fit (bk_body b)
  /\ lenN (bb_consolidations (bk_body b)) = 1 /\ fst (process_block E Electra b s) = Panic.
Proof.
  exists tiny, consolidation_block, churn_toy. split; [exact tiny_crash_config|]. split; [reflexivity|]. split; [apply churn_toy_bounds|]. split; [exact churn_toy_queues|].
  split; [repeat split; vm_compute; congruence|]. split; [repeat split; vm_compute; congruence|]. split; vm_compute; reflexivity.
Qed.

Print Assumptions C82_release_no_panic.
Print Assumptions C82_checked_no_panic_partial.
Print Assumptions C82_consolidation_block_refuted.
