(** * Property theorems: no block crashes the node (C81)

    A block comes from the network.  Whatever it contains, block processing of a state of realistic size returns: it accepts the
    block or reports an error.  [E] ranges over both builds: with overflow checks an overflow is a panic, so the absence of panics
    there means that no operation wraps in the build without checks either. *)
From Verif Require Import Base BaseLemmas Types Ctx Env Presets Helpers HelpersAltair HelpersElectra Block Epoch Transition StLemmas
  SpecCommon SpecShuffle SpecHelpers SpecElectra SpecOps SpecBlock SpecAtt SpecFlow SpecFinality SpecSlots SpecEpoch SpecRegistry SpecQueues SpecPhase0 SpecTotal SpecCrash
  HelperProofs HelperProofs2 FlowProofs BlockProofs PropsAtt PropsEpoch PropsTotal CrashProofs Toy ToyCtx Toy2 Toy3.

(** the configuration limits all theorems of this file rely on *)
Definition crash_config (E : Env) : Prop :=
  ctx_sane E /\ ctx_sane_att E /\ ctx_sane_electra E /\ mainnet_scale E /\ block_scale E
  /\ hash_wf (hash E) /\ roots_wide E /\ N.of_nat (fuel E) < 2 ^ 60 /\ (forall f, slashing_quotients_pos E f).

Theorem C81_block_no_panic : forall (E : Env) (f : Fork) (b : BeaconBlock) (s : BeaconState),
  crash_config E -> f <> Electra -> block_bounds E f s -> block_fits (bk_body b) -> vote_keeps_deposits E (bk_body b) s ->
  fst (process_block E f b s) <> Panic.
Proof. intros E f b s (C1 & C2 & C3 & C4 & C5 & C6 & C7 & C8 & C9). intros. apply block_safe; assumption. Qed.

(** every shipped network has the required scale *)
Theorem C81_networks : forall c, In c [ctx_mainnet; ctx_minimal; ctx_goerli; ctx_sepolia; ctx_holesky; ctx_hoodi] -> mainnet_scale c /\ block_scale c.
Proof. intros c H. repeat (destruct H as [<-|H]; [vm_compute; repeat split; congruence|]). destruct H. Qed.

(** ** The two state facts that cannot be dropped *)
(** once the adopted deposit count is below the number of processed deposits, every block panics in a build with overflow checks *)
Theorem C81_deposit_count_underflow_refuted : forall (E : Env) (f : Fork) (b : BeaconBlockBody) (s : BeaconState),
  chk E = true -> f <> Electra -> e1_deposit_count (eth1_data s) < eth1_deposit_index s ->
  process_operations E f b s = (Panic, s).
Proof.
  intros E f b s Hc Hf Hlt. unfold process_operations.
  assert (H : deposit_count_check E f b s = Panic).
  { assert (Hs : sub E (e1_deposit_count (eth1_data s)) (eth1_deposit_index s) = Panic)
      by (unfold sub, usub; rewrite (proj2 (N.leb_gt _ _) Hlt), Hc; reflexivity).
    unfold deposit_count_check. rewrite Hs. destruct f; try reflexivity. contradiction. }
  unfold sbind, rd. rewrite H. reflexivity.
Qed.
(** without overflow checks the count wraps: a block without deposits is refused, one with deposits is taken on *)
Theorem C81_deposit_count_wraps : forall (E : Env) (f : Fork) (b : BeaconBlockBody) (s : BeaconState),
  chk E = false -> f <> Electra -> e1_deposit_count (eth1_data s) < eth1_deposit_index s -> eth1_deposit_index s < 2 ^ 63 -> MAX_DEPOSITS E <= 2 ^ 32 ->
  (deposit_count_check E f b s = Ok tt <-> lenN (bb_deposits b) = MAX_DEPOSITS E).
Proof.
  intros E f b s Hc Hf Hlt Hi Hm.
  assert (Hs : sub E (e1_deposit_count (eth1_data s)) (eth1_deposit_index s) = Ok (e1_deposit_count (eth1_data s) + U64 - eth1_deposit_index s))
    by (unfold sub, usub; rewrite (proj2 (N.leb_gt _ _) Hlt), Hc; reflexivity).
  assert (Hmin : N.min (MAX_DEPOSITS E) (e1_deposit_count (eth1_data s) + U64 - eth1_deposit_index s) = MAX_DEPOSITS E) by (pows; lia).
  assert (Heq : deposit_count_check E f b s = require (lenN (bb_deposits b) =? MAX_DEPOSITS E) EDepIncorrectCount)
    by (unfold deposit_count_check; rewrite Hs; cbn [rbind]; rewrite Hmin; destruct f; try reflexivity; contradiction).
  rewrite Heq. unfold require. destruct (N.eqb_spec (lenN (bb_deposits b)) (MAX_DEPOSITS E)); split; congruence.
Qed.
(** a sync committee member that is not in the registry: every valid aggregate panics, in both builds *)
Lemma last_position_none pk : forall vs i0, (forall v, In v vs -> v_public_key v <> pk) -> last_position_pk pk vs i0 None = None.
Proof.
  induction vs as [|v vs IH]; intros i0 H; cbn [last_position_pk]; [reflexivity|].
  destruct (bytes_eqb (v_public_key v) pk) eqn:Hb; [apply bytes_eqb_iff in Hb; exfalso; exact (H v (or_introl eq_refl) Hb)|].
  apply IH. intros w Hw. apply H. right. exact Hw.
Qed.
Lemma rmap_some_panic {A B} (g : A -> res B) l x : (forall y, In y l -> (exists b, g y = Ok b) \/ g y = Panic) -> In x l -> g x = Panic -> rmap g l = Panic.
Proof.
  induction l as [|y l IH]; intros Hall Hin Hp; [destruct Hin|]. cbn [rmap]. destruct (Hall y (or_introl eq_refl)) as [[b Hb]|Hb]; rewrite Hb; [|reflexivity].
  cbn [rbind]. destruct Hin as [->|Hin]; [congruence|]. rewrite IH; [reflexivity|intros z Hz; apply Hall; right; exact Hz|exact Hin|exact Hp].
Qed.
Theorem C81_unregistered_member_refuted : forall (E : Env) (sa : SyncAggregate) (s : BeaconState) (pk : bytes),
  ctx_sane E -> ctx_sane_att E -> state_shape E s -> slot_small s -> active_balance_fits E s -> 1 <= SYNC_COMMITTEE_SIZE E -> sync_rewards_fit E s ->
  sync_aggregate_valid E s sa -> In pk (sc_public_keys (current_sync_committee s)) -> (forall v, In v (validators s) -> v_public_key v <> pk) ->
  process_sync_aggregate E sa s = (Panic, s).
Proof.
  intros E sa s pk Hc Ha Hsh Hs Hf H1 Hr Hv Hin Hno. unfold process_sync_aggregate.
  rewrite (run_rd _ _ _ tt) by (apply sync_checks_iff; assumption). rewrite (run_rd _ _ _ _ (sync_rewards_ok E Hc Ha s Hf H1 Hr)).
  assert (Hp : sync_indices s = Panic); [|unfold sbind, rd; rewrite Hp; reflexivity].
  unfold sync_indices. refine (rmap_some_panic _ _ pk _ Hin _).
  - intros y _. destruct (last_position_pk y (validators s) 0 None) as [i|]; [left; exists i; reflexivity|right; reflexivity].
  - rewrite last_position_none by exact Hno. reflexivity.
Qed.

(** ** Examples *)
Lemma tiny_crash_config : crash_config tiny.
Proof.
  split; [exact tiny_sane|]. split; [exact tiny_sane_att|]. split; [exact tiny_sane_electra|]. split; [exact tiny_scale|].
  split; [vm_compute; repeat split; congruence|]. split; [exact toy_hash_wf|].
  split; [|split; [vm_compute; reflexivity|exact tiny_quotients]].
  intros v g r H. injection H as <-. unfold toy_hash, lenN. rewrite map_length. vm_compute. discriminate.
Qed.
Definition crash_toy : BeaconState := tiny_state 4 13.
Lemma crash_toy_bounds f : block_bounds tiny f crash_toy.
Proof.
  constructor.
  - exact (tiny_shape 4 13 ltac:(vm_compute; discriminate)).
  - vm_compute. reflexivity.
  - vm_compute. reflexivity.
  - split; [reflexivity|]. intros _. repeat split; reflexivity.
  - assert (H : forall v, In v (validators crash_toy) -> v_effective_balance v <= MAX_EFFECTIVE_BALANCE tiny)
      by (apply (all_of (fun v => v_effective_balance v <=? MAX_EFFECTIVE_BALANCE tiny)); [intros x Hx; apply N.leb_le; exact Hx|vm_compute; reflexivity]).
    intros v Hv. specialize (H v Hv). destruct f; try exact H. eapply N.le_trans; [exact H|]. vm_compute. discriminate.
  - vm_compute. reflexivity.
  - apply (all_of (fun x => x <? 2 ^ 60)); [intros x Hx; apply N.ltb_lt; exact Hx|vm_compute; reflexivity].
  - apply (all_of (fun x => x <? 2 ^ 60)); [intros x Hx; apply N.ltb_lt; exact Hx|vm_compute; reflexivity].
  - refine (all_of (fun v => v_exit_epoch v =? FAR_FUTURE_EPOCH) (fun v => v_exit_epoch v <> FAR_FUTURE_EPOCH -> v_exit_epoch v < 2 ^ 61) _ _ _); [|vm_compute; reflexivity].
    intros v Hv Hne. apply N.eqb_eq in Hv. contradiction.
  - refine (all_of (fun v => v_activation_eligibility_epoch v <=? v_activation_epoch v) (fun v => v_activation_epoch v <> FAR_FUTURE_EPOCH -> v_activation_eligibility_epoch v <= v_activation_epoch v) _ _ _); [|vm_compute; reflexivity].
    intros v Hv _. apply N.leb_le. exact Hv.
  - intros _. split; [|vm_compute; discriminate].
    refine (all_of (fun pk => existsb (fun v => bytes_eqb (v_public_key v) pk) (validators crash_toy)) _ _ _ _); [|vm_compute; reflexivity].
    intros pk Hpk. apply existsb_exists in Hpk as (v & Hv & He). apply bytes_eqb_iff in He. exists v. auto.
  - vm_compute. reflexivity.
  - intros _. split; vm_compute; reflexivity.
  - repeat split; vm_compute; congruence.
Qed.
(** an accepted block and a rejected one, in every fork: neither crashes, and the hypotheses hold for both *)
Example C81_example : forall f, f <> Electra ->
  crash_config tiny /\ block_bounds tiny f crash_toy
  /\ block_fits (bk_body (tiny_block crash_toy 1)) /\ vote_keeps_deposits tiny (bk_body (tiny_block crash_toy 1)) crash_toy
  /\ fst (process_block tiny f (tiny_block crash_toy 1) crash_toy) = Ok tt
  /\ fst (process_block tiny f (tiny_block crash_toy 2) crash_toy) = Err EHdrProposerIndexMismatch.
Proof.
  intros f Hf. split; [exact tiny_crash_config|]. split; [apply crash_toy_bounds|]. split; [repeat split; vm_compute; congruence|].
  split; [intros _; vm_compute; discriminate|]. destruct f; try contradiction; split; vm_compute; reflexivity.
Qed.
(** one vote away from a majority for eth1 data with a lower count: a block that passes every check crashes the checked build *)
Definition lowering_block : BeaconBlock :=
  let b := tiny_block crash_toy 1 in let body := bk_body b in
  mkBlock (bk_slot b) (bk_proposer_index b) (bk_parent_root b) (bk_state_root b)
    (mkBody (bb_randao_reveal body) (mkEth1 (repeat 9 32) 3 (repeat 8 32)) (bb_graffiti body) [] [] [] [] [] (bb_sync_aggregate body) (bb_execution_payload body) [] [] []).
Definition lowering_toy : BeaconState := set_eth1_data_votes (repeatN (mkEth1 (repeat 9 32) 3 (repeat 8 32)) (voting_period tiny / 2)) crash_toy.
Example C81_underflow_example : forall f, f <> Electra ->
  block_fits (bk_body lowering_block) /\ ~ vote_keeps_deposits tiny (bk_body lowering_block) lowering_toy
  /\ fst (process_block tiny f lowering_block lowering_toy) = Panic.
Proof.
  intros f Hf. split; [repeat split; vm_compute; congruence|].
  split; [intros H; assert (Hm : has_majority tiny (bb_eth1_data (bk_body lowering_block)) (eth1_data_votes lowering_toy ++ [bb_eth1_data (bk_body lowering_block)])) by (vm_compute; reflexivity);
    specialize (H Hm); vm_compute in H; apply H; reflexivity|].
  destruct f; try contradiction; vm_compute; reflexivity.
Qed.
(** one committee key is not registered: the block that is accepted otherwise crashes *)
Example C81_unregistered_example :
  let s := set_current_sync_committee (mkSyncCom (map toy_pk [0; 1; 77; 2]) (sc_aggregate_public_key (current_sync_committee crash_toy))) crash_toy in
  ~ committee_registered s /\ fst (process_block tiny Deneb (tiny_block crash_toy 1) s) = Panic /\ fst (process_block tiny_release Deneb (tiny_block crash_toy 1) s) = Panic.
Proof.
  split; [|split; vm_compute; reflexivity]. intros H. destruct (H (toy_pk 77) ltac:(cbn; auto)) as (v & Hv & He).
  assert (Hb : existsb (fun v => bytes_eqb (v_public_key v) (toy_pk 77)) (validators crash_toy) = true)
    by (apply existsb_exists; exists v; split; [exact Hv|apply bytes_eqb_iff; exact He]). vm_compute in Hb. discriminate.
Qed.

Print Assumptions C81_block_no_panic.
Print Assumptions C81_networks.
Print Assumptions C81_deposit_count_underflow_refuted.
Print Assumptions C81_deposit_count_wraps.
Print Assumptions C81_unregistered_member_refuted.
