(** * C97: the votes a chain records stay valid, and what follows for every state of a chain *)
From Verif Require Import Base BaseLemmas Types Ctx Env Presets Helpers HelpersAltair HelpersElectra Block Epoch Transition Upgrade Genesis StLemmas
  SpecCommon SpecShuffle SpecHelpers SpecElectra SpecOps SpecBlock SpecAtt SpecFlow SpecFinality SpecSlots SpecEpoch SpecRegistry SpecHistory SpecQueues SpecPhase0 SpecTotal SpecCrash
  SpecReach SpecDuties HelperProofs HelperProofs2 BlockProofs HistoryProofs FinalityProofs ReachShape VoteProofs
  PropsAtt PropsEpoch PropsFinality PropsTotal PropsInvariants PropsCrash PropsCrash2 PropsCrash3 PropsReach Toy ToyCtx Toy2 Toy3.
From Coq Require Import Relations.

(** a state of a chain: from a genesis state by slot processing that succeeded, blocks with any outcome and fork upgrades *)
Definition on_chain (E : Env) (g : Fork) (s : BeaconState) : Prop :=
  exists f block_hash timestamp deposits header s0,
    initialize_beacon_state_from_eth1 E f block_hash timestamp deposits header = Ok s0 /\ SpecFinality.chain E (f, s0) (g, s).
Lemma chain_history (E : Env) p p' : SpecFinality.chain E p p' -> history E p p'.
Proof.
  induction 1 as [a b H|a|a b c H1 IH1 H2 IH2]; [|apply hist_refl|eapply hist_trans; eauto]. apply hist_call.
  destruct H; econstructor; eassumption.
Qed.
Lemma on_chain_reachable (E : Env) g s : on_chain E g s -> reachable E g s.
Proof. intros (f & bh & ts & ds & h & s0 & Hg & Hc). exists f, bh, ts, ds, h, s0. split; [exact Hg|apply chain_history; exact Hc]. Qed.

(** the window of randao mixes reaches back far enough for the votes of two epochs *)
Definition mixes_last (c : Ctx) : Prop := MIN_SEED_LOOKAHEAD c <= MAX_SEED_LOOKAHEAD c /\ MIN_SEED_LOOKAHEAD c + 3 < EPOCHS_PER_HISTORICAL_VECTOR c.
Theorem C97_networks : forall c, In c [ctx_mainnet; ctx_minimal; ctx_goerli; ctx_sepolia; ctx_holesky; ctx_hoodi] -> mixes_last c.
Proof. intros c H. repeat (destruct H as [<-|H]; [split; vm_compute; congruence|]). destruct H. Qed.

(** ** C97: every recorded phase0 vote still matches its committee, however many blocks and epochs came after it *)
Theorem C97_votes_stay_valid : forall (E : Env) (s : BeaconState),
  chk E = true -> ctx_sane E -> ctx_sane_att E -> hash_wf (hash E) -> mixes_last E ->
  on_chain E Phase0 s -> lenN (validators s) <= 2 ^ 40 -> slot s < 2 ^ 56 -> votes_sound E s.
Proof.
  intros E s Hk Hc Ha Hw [H1 H2] (f & bh & ts & ds & h & s0 & Hg & Hch) Hn Hs.
  destruct (votes_on_chain E Hk Hc Ha Hw H1 H2 _ _ Hch eq_refl) as [Hf V]. cbn [fst snd] in Hf, V. subst f.
  destruct (genesis_fresh E Hc Ha _ _ _ _ _ _ Hg) as (F1 & F2 & F3 & _). apply genesis_sized in Hg.
  apply (vo_votes E s0 s V); auto. unfold votes_sound. rewrite F2, F3. split; intros a [].
Qed.
(** the same from any phase0 state whose votes are sound, such as a checkpoint state *)
Theorem C97_votes_stay_valid_from : forall (E : Env) (f : Fork) (s s' : BeaconState),
  chk E = true -> ctx_sane E -> ctx_sane_att E -> hash_wf (hash E) -> mixes_last E ->
  SpecFinality.chain E (f, s) (Phase0, s') -> state_shape E s -> lenN (validators s') <= 2 ^ 40 -> slot s' < 2 ^ 56 -> votes_sound E s -> votes_sound E s'.
Proof.
  intros E f s s' Hk Hc Ha Hw [H1 H2] Hch (Z1 & Z2 & Z3 & Z4 & Z5 & _) Hn Hs Hv.
  destruct (votes_on_chain E Hk Hc Ha Hw H1 H2 _ _ Hch eq_refl) as [Hf V]. cbn [fst snd] in Hf, V.
  apply (vo_votes E s s' V); auto. repeat split; assumption.
Qed.

(** ** What this discharges *)
(** checkpoints: finalized, previous justified and current justified epoch are ordered and in the past; both builds *)
Theorem C97_finality_ordered : forall (E : Env) (g : Fork) (s : BeaconState),
  ctx_sane E -> ctx_sane_att E -> on_chain E g s -> finality_ordered E s.
Proof.
  intros E g s Hc Ha (f & bh & ts & ds & h & s0 & Hg & Hch). apply (genesis_fresh E Hc Ha) in Hg as (F1 & _ & _ & F4 & F5 & F6 & _).
  apply (C16_epochs_never_decrease E f g s0 s Hc Hch). unfold finality_ordered. rewrite F4, F5, F6. cbn. unfold prev_epoch_of. lia.
Qed.
Lemma on_chain_aligned (E : Env) g s : on_chain E g s -> registry_aligned g s.
Proof. intros H. apply on_chain_reachable in H as (f & bh & ts & ds & h & s0 & Hg & Hh). exact (proj1 (C28_registry_aligned E f g bh ts ds h s0 s Hg Hh)). Qed.
Lemma on_chain_shape (E : Env) g s : on_chain E g s -> lenN (validators s) <= 2 ^ 40 -> state_shape E s.
Proof. intros H Hn. apply on_chain_reachable, C90_vectors in H as (H1 & H2 & H3 & H4 & H5). repeat split; assumption. Qed.
Lemma on_chain_votes (E : Env) g s : (g = Phase0 -> chk E = true /\ mixes_last E) -> ctx_sane E -> ctx_sane_att E -> hash_wf (hash E) ->
  on_chain E g s -> lenN (validators s) <= 2 ^ 40 -> slot s < 2 ^ 56 -> votes_recorded E g s.
Proof.
  intros Hp Hc Ha Hw Ho Hn Hs. pose proof (on_chain_aligned E g s Ho) as (A1 & A2).
  destruct g; [|destruct (A2 ltac:(discriminate)) as (A3 & A4 & _); split; assumption..].
  destruct (Hp eq_refl) as [Hk Hm]. destruct (C97_votes_stay_valid E s Hk Hc Ha Hw Hm Ho Hn Hs) as [V1 V2].
  intros a Hin. apply in_app_or in Hin as [Hin|Hin]; [apply (V2 a Hin)|apply (V1 a Hin)].
Qed.
(** an epoch of a chain becomes justified only with two thirds of the active stake behind its target (C17, without its hypotheses on votes and checkpoints) *)
Theorem C97_justified_needs_supermajority : forall (E : Env) (g : Fork) (s s' : BeaconState),
  ctx_sane E -> ctx_sane_att E -> hash_wf (hash E) -> (g = Phase0 -> chk E = true /\ mixes_last E) ->
  on_chain E g s -> lenN (validators s) <= 2 ^ 40 -> slot s < 2 ^ 56 -> stake_fits s -> 0 < slot s mod SLOTS_PER_EPOCH E ->
  process_justification_and_finalization E g s = (Ok tt, s') ->
  current_justified_checkpoint s' <> current_justified_checkpoint s ->
  exists e w, (e = epoch_of E s \/ e = prev_epoch_of E s)
    /\ current_justified_checkpoint s' = checkpoint_of E s e
    /\ target_weight E g s e w /\ 2 * active_balance E s <= 3 * w.
Proof.
  intros E g s s' Hc Ha Hw Hp Ho Hn Hs Hst Hm. pose proof (C97_finality_ordered E g s Hc Ha Ho) as (O1 & O2 & O3).
  assert (He : epoch_of E s <= slot s) by (unfold epoch_of; apply N.div_le_upper_bound; [|]; ctxs Hc; nia).
  apply C17_supermajority; auto; [eapply on_chain_shape; eauto|eapply on_chain_votes; eauto|].
  unfold justified_small, prev_epoch_of in *. pows. lia.
Qed.

(** a chain state of realistic size at the end of an epoch: only numbers.  The stake active in the previous epoch is at most twice the
    stake active now *)
Record realistic_epoch (E : Env) (g : Fork) (s : BeaconState) : Prop := mkRealisticEpoch {
  rx_turnover : effective_sum s (active_set s (prev_epoch_of E s)) <= 2 * active_balance E s;
  rx_scores : forall x, In x (inactivity_scores s) -> x < 2 ^ 22;
  rx_slashings : sumN (slashings s) < match g with Electra => 2 ^ 50 | _ => 2 ^ 62 end;
  rx_epoch : g = Phase0 -> epoch_of E s < 2 ^ 28;
  rx_exits : exits_below s (2 ^ 59);
  rx_balances : sumN (balances s) < 2 ^ 58;
  rx_registry : g <> Electra -> lenN (validators s) * MAX_EFFECTIVE_BALANCE E < 3 * 2 ^ 55;
  rx_electra : g = Electra ->
    queue_total (pending_balance_deposits s) < 2 ^ 60 /\ deposit_balance_to_consume s < 2 ^ 62 /\ earliest_exit_epoch s < 2 ^ 59
    /\ registered_stake s + held Electra s + lenN (validators s) * EFFECTIVE_BALANCE_INCREMENT E < 3 * 2 ^ 55 /\ exit_room E Electra s }.
Lemma on_chain_within (E : Env) g s : crash_config E -> caps_sane E -> 1 <= MIN_VALIDATOR_WITHDRAWABILITY_DELAY E -> (g = Phase0 -> chk E = true /\ mixes_last E) ->
  on_chain E g s -> realistic E g s -> realistic_epoch E g s -> within_bounds E g s.
Proof.
  intros (C1 & C2 & C3 & C4 & C5 & C6 & C7 & C8 & C9) Hcap Hd Hp Ho R X. pose proof (on_chain_reachable E g s Ho) as Hr.
  assert (Hn : lenN (validators s) <= 2 ^ 40) by (pose proof (re_registry _ _ _ R); pows; lia).
  pose proof (on_chain_aligned E g s Ho) as Hal. pose proof (C90_references E g s Hd Hr) as Href.
  destruct X as [X1 X2 X3 X4 X5 X6 X7 X8]. constructor; auto.
  - eapply on_chain_shape; eauto.
  - exact (re_slot _ _ _ R).
  - intros v Hv. apply (C90_effective_balances E g s Hcap Hr v Hv).
  - pose proof (re_stake _ _ _ R). unfold registered_stake. pows. lia.
  - destruct g; try (unfold held; pows; lia).
  - unfold registry_room. destruct g; try (intros v Hv Hne; specialize (X5 v Hv Hne); pows; lia). apply X8. reflexivity.
  - apply (C97_finality_ordered E g s C1 C2 Ho).
  - intros ->. destruct (X8 eq_refl) as (_ & Q & _). split; [|split; [exact Q|]].
    + intros d Hin. destruct Hal as [-> _]. apply (rv_deposits s Href d Hin).
    + intros c Hin. apply (rv_consolidations s Href c Hin).
  - intros ->. destruct (Hp eq_refl) as [Hk Hm]. destruct (C97_votes_stay_valid E s Hk C1 C2 C6 Hm Ho Hn (re_slot _ _ _ R)) as [V1 V2].
    split; [intros a Hin; destruct (V2 a Hin) as (? & ? & ? & ? & _); auto|]. split; [intros a Hin; apply (V1 a Hin)|auto].
Qed.

(** ** C98: importing the first block of the next epoch does not crash a node whose state is one of a chain; only numbers are assumed *)
Theorem C98_next_epoch : forall (E : Env) (g : Fork) (validate : bool) (sb : SignedBeaconBlock) (s : BeaconState),
  crash_config E -> caps_sane E -> 1 <= MIN_VALIDATOR_WITHDRAWABILITY_DELAY E -> ctx_sane_epoch E -> hashing_total E ->
  (g = Phase0 -> chk E = true /\ mixes_last E) -> g <> Electra ->
  on_chain E g s -> realistic E g s -> realistic_epoch E g s -> active_set s (epoch_of E s + 1) <> [] ->
  block_fits (bk_body (sb_message sb)) -> vote_keeps_deposits E (bk_body (sb_message sb)) s ->
  next_epoch_start E s <= bk_slot (sb_message sb) -> bk_slot (sb_message sb) < next_epoch_start E s + SLOTS_PER_EPOCH E -> bk_slot (sb_message sb) < 2 ^ 56 ->
  fst (state_transition E g validate sb s) <> Panic.
Proof.
  intros E g v sb s C Hcap Hd He Hh Hp Hg Ho R X Hact. pose proof (on_chain_reachable E g s Ho) as Hr.
  apply C84_next_epoch; auto; [apply on_chain_within; assumption|apply reachable_bounds; assumption|].
  destruct X as [X1 X2 X3 X4 X5 X6 X7 X8]. constructor; auto; [intros w Hw Hne; specialize (X5 w Hw Hne); pows; lia|].
  intros Hf. destruct (C90_committees E g s Hd Hr Hf) as [_ [H1 H2]]. split; [exact H2|lia].
Qed.
Theorem C98_next_epoch_electra : forall (E : Env) (validate : bool) (sb : SignedBeaconBlock) (s : BeaconState),
  crash_config E -> caps_sane E -> 1 <= MIN_VALIDATOR_WITHDRAWABILITY_DELAY E -> ctx_sane_epoch E -> narrow_band E -> hashing_total E ->
  (chk E = true -> bb_consolidations (bk_body (sb_message sb)) = []) ->
  on_chain E Electra s -> realistic E Electra s -> realistic_queues s -> realistic_epoch E Electra s -> active_set s (epoch_of E s + 1) <> [] ->
  block_fits (bk_body (sb_message sb)) -> requests_fit (bk_body (sb_message sb)) ->
  next_epoch_start E s <= bk_slot (sb_message sb) -> bk_slot (sb_message sb) < next_epoch_start E s + SLOTS_PER_EPOCH E -> bk_slot (sb_message sb) < 2 ^ 56 ->
  fst (state_transition E Electra validate sb s) <> Panic.
Proof.
  intros E v sb s C Hcap Hd He Hnb Hh Hcons Ho R Q X Hact. pose proof (on_chain_reachable E Electra s Ho) as Hr.
  apply C84_next_epoch_electra; auto; [apply on_chain_within; auto; discriminate|apply reachable_bounds; assumption|apply (reachable_queues E Electra); assumption|].
  destruct X as [X1 X2 X3 X4 X5 X6 X7 X8]. destruct (X8 eq_refl) as (Y1 & Y2 & Y3 & Y4 & Y5). constructor; auto.
  destruct (C90_committees E Electra s Hd Hr ltac:(discriminate)) as [_ [H1 H2]]. split; [exact H2|lia].
Qed.

(** ** Examples *)
(** a phase0 chain: genesis with four validators, a block at slot 1 with a vote of the committee of slot 0, then slots up to the next epoch *)
Definition chain_genesis : BeaconState :=
  match initialize_beacon_state_from_eth1 tiny Phase0 zero32 5
          [PropsInvariants.toy_deposit 0 32000000000; PropsInvariants.toy_deposit 1 32000000000; PropsInvariants.toy_deposit 2 32000000000; PropsInvariants.toy_deposit 3 32000000000] None with
  | Ok s => s | _ => tiny_state 0 0 end.
Definition chain_one : BeaconState := snd (process_slots tiny Phase0 1 chain_genesis).
Definition chain_proposer : N := match get_beacon_proposer_index tiny chain_one with Ok p => p | _ => 0 end.
Definition chain_voter : N := match get_beacon_committee tiny chain_one 0 0 with Ok [i] => i | _ => 9 end.
Definition chain_data : AttestationData := mkAttData 0 0 (to_le 32 13) zero_checkpoint (mkCheckpoint 0 (to_le 32 13)).
Definition chain_vote : Attestation :=
  mkAtt [true] chain_data []
    (match get_domain tiny chain_one DBeaconAttester (Some 0) with
     | Ok d => toy_sign (toy_pk chain_voter) (tiny_signing_root d (OAttestationData chain_data)) | _ => [] end).
Definition vote_block : BeaconBlock :=
  let b := tiny_block chain_one chain_proposer in let body := bk_body b in
  mkBlock (bk_slot b) (bk_proposer_index b) (bk_parent_root b) (bk_state_root b)
    (mkBody (bb_randao_reveal body) (mkEth1 zero32 4 zero32) (bb_graffiti body) [] [] [chain_vote] [] [] (bb_sync_aggregate body) (bb_execution_payload body) [] [] []).
Definition chain_two : BeaconState := snd (process_block tiny Phase0 vote_block chain_one).
Definition chain_three : BeaconState := snd (process_slots tiny Phase0 5 chain_two).
Lemma chain_three_on : on_chain tiny Phase0 chain_three.
Proof.
  exists Phase0, zero32, 5, [PropsInvariants.toy_deposit 0 32000000000; PropsInvariants.toy_deposit 1 32000000000; PropsInvariants.toy_deposit 2 32000000000; PropsInvariants.toy_deposit 3 32000000000], None, chain_genesis.
  split; [vm_compute; reflexivity|].
  assert (H1 : fst (process_slots tiny Phase0 1 chain_genesis) = Ok tt) by (vm_compute; reflexivity).
  assert (H3 : fst (process_slots tiny Phase0 5 chain_two) = Ok tt) by (vm_compute; reflexivity).
  eapply rt_trans; [apply rt_step; apply chain_slots with (target := 1) (s' := chain_one); [reflexivity|unfold chain_one; rewrite <- H1; apply surjective_pairing]|].
  eapply rt_trans; [apply rt_step; eapply chain_block with (s' := chain_two); unfold chain_two; apply surjective_pairing|].
  apply rt_step. apply chain_slots with (target := 5); [reflexivity|]. unfold chain_three. rewrite <- H3. apply surjective_pairing.
Qed.
Lemma tiny_mixes : mixes_last tiny. Proof. split; vm_compute; congruence. Qed.
Example C97_example : chk tiny = true /\ ctx_sane tiny /\ ctx_sane_att tiny /\ hash_wf (hash tiny) /\ mixes_last tiny
  /\ on_chain tiny Phase0 chain_three /\ lenN (validators chain_three) <= 2 ^ 40 /\ slot chain_three < 2 ^ 56
  /\ epoch_of tiny chain_three = 1 /\ map pa_data (previous_epoch_attestations chain_three) = [chain_data].
Proof.
  split; [reflexivity|]. split; [exact tiny_sane|]. split; [exact tiny_sane_att|]. split; [exact toy_hash_wf|]. split; [exact tiny_mixes|].
  split; [exact chain_three_on|]. vm_compute. repeat split; congruence.
Qed.
Lemma chain_three_realistic : realistic tiny Phase0 chain_three.
Proof.
  constructor.
  - vm_compute. split; [discriminate|reflexivity].
  - vm_compute. reflexivity.
  - vm_compute. reflexivity.
  - apply (all_of (fun x => x <? 2 ^ 60)); [intros x Hx; apply N.ltb_lt; exact Hx|vm_compute; reflexivity].
  - apply (all_of (fun x => x <? 2 ^ 60)); [intros x Hx; apply N.ltb_lt; exact Hx|vm_compute; reflexivity].
  - refine (all_of (fun v => v_exit_epoch v =? FAR_FUTURE_EPOCH) (fun v => v_exit_epoch v <> FAR_FUTURE_EPOCH -> v_exit_epoch v < 2 ^ 61) _ _ _); [|vm_compute; reflexivity].
    intros v Hv Hne. apply N.eqb_eq in Hv. contradiction.
  - vm_compute. reflexivity.
  - vm_compute. reflexivity.
  - vm_compute. repeat split; congruence.
  - intros H. vm_compute in H. discriminate H.
Qed.
Lemma chain_three_epoch : realistic_epoch tiny Phase0 chain_three.
Proof.
  constructor.
  - vm_compute. discriminate.
  - apply (all_of (fun x => x <? 2 ^ 22)); [intros x Hx; apply N.ltb_lt; exact Hx|vm_compute; reflexivity].
  - vm_compute. reflexivity.
  - intros _. vm_compute. reflexivity.
  - refine (all_of (fun v => v_exit_epoch v =? FAR_FUTURE_EPOCH) (fun v => v_exit_epoch v <> FAR_FUTURE_EPOCH -> v_exit_epoch v < 2 ^ 59) _ _ _); [|vm_compute; reflexivity].
    intros v Hv Hne. apply N.eqb_eq in Hv. contradiction.
  - vm_compute. reflexivity.
  - intros _. vm_compute. reflexivity.
  - intros H. discriminate H.
Qed.
(** the first block of epoch 2 is processed against the state of epoch 1; here its state root is wrong, so it is rejected, not a crash *)
Definition chain_next : SignedBeaconBlock := mkSignedBlock (mkBlock 8 0 zero32 zero32 (tiny_body chain_three 0)) [].
Example C98_example : crash_config tiny /\ caps_sane tiny /\ 1 <= MIN_VALIDATOR_WITHDRAWABILITY_DELAY tiny /\ ctx_sane_epoch tiny /\ hashing_total tiny
  /\ (chk tiny = true /\ mixes_last tiny) /\ on_chain tiny Phase0 chain_three /\ realistic tiny Phase0 chain_three /\ realistic_epoch tiny Phase0 chain_three
  /\ active_set chain_three (epoch_of tiny chain_three + 1) = [0; 1; 2; 3]
  /\ block_fits (bk_body (sb_message chain_next)) /\ vote_keeps_deposits tiny (bk_body (sb_message chain_next)) chain_three
  /\ next_epoch_start tiny chain_three = bk_slot (sb_message chain_next).
Proof.
  split; [exact tiny_crash_config|]. split; [exact tiny_caps|]. split; [vm_compute; discriminate|]. split; [exact tiny_sane_epoch|]. split; [exact tiny_hashing|].
  split; [split; [reflexivity|exact tiny_mixes]|]. split; [exact chain_three_on|]. split; [exact chain_three_realistic|]. split; [exact chain_three_epoch|].
  split; [vm_compute; reflexivity|]. split; [repeat split; vm_compute; congruence|]. split; [intros _; vm_compute; discriminate|]. vm_compute. reflexivity.
Qed.
(** the electra genesis state of C91 *)
Definition electra_next : SignedBeaconBlock := mkSignedBlock (mkBlock 4 0 zero32 zero32 (tiny_body electra_genesis 0)) [].
Example C98_electra_example : on_chain tiny Electra electra_genesis /\ realistic_epoch tiny Electra electra_genesis /\ narrow_band tiny
  /\ active_set electra_genesis (epoch_of tiny electra_genesis + 1) = [0]
  /\ bb_consolidations (bk_body (sb_message electra_next)) = [] /\ requests_fit (bk_body (sb_message electra_next))
  /\ next_epoch_start tiny electra_genesis = bk_slot (sb_message electra_next).
Proof.
  split.
  { exists Electra, zero32, 5, [PropsInvariants.toy_deposit 0 32000000000; PropsInvariants.toy_deposit 1 16000000000], None, electra_genesis. split; [vm_compute; reflexivity|apply rt_refl]. }
  split.
  { constructor.
    - vm_compute. discriminate.
    - apply (all_of (fun x => x <? 2 ^ 22)); [intros x Hx; apply N.ltb_lt; exact Hx|vm_compute; reflexivity].
    - vm_compute. reflexivity.
    - intros H. discriminate H.
    - refine (all_of (fun v => v_exit_epoch v =? FAR_FUTURE_EPOCH) (fun v => v_exit_epoch v <> FAR_FUTURE_EPOCH -> v_exit_epoch v < 2 ^ 59) _ _ _); [|vm_compute; reflexivity].
      intros v Hv Hne. apply N.eqb_eq in Hv. contradiction.
    - vm_compute. reflexivity.
    - intros H. contradiction.
    - intros _. unfold exit_room, active_balance_fits. vm_compute. repeat split. }
  split; [vm_compute; congruence|]. vm_compute. repeat split; congruence.
Qed.

Print Assumptions C97_networks.
Print Assumptions C97_votes_stay_valid.
Print Assumptions C97_votes_stay_valid_from.
Print Assumptions C97_finality_ordered.
Print Assumptions C97_justified_needs_supermajority.
Print Assumptions C98_next_epoch.
Print Assumptions C98_next_epoch_electra.
