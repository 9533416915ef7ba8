(** * C106, C107: the blocks of an epoch mint no more than the votes, the reports and the sync committee are worth *)
From Verif Require Import Base BaseLemmas Types Ctx Env Helpers HelpersAltair HelpersElectra Block Epoch Transition StLemmas Frame
  SpecCommon SpecShuffle SpecHelpers SpecAtt SpecFlow SpecQueues SpecFinality SpecEpoch SpecTotal SpecIncentive SpecIssuance HelperProofs Toy ToyCtx Toy2 ToyPair
  IssuanceProofs EpochIssuance PropsAtt PropsEpoch PropsTotal.

(** Over any blocks and empty slots of one epoch, in any fork: what the validators own (balances and queued deposits) grows by at most what
    the deposits bring, a report reward for each newly slashed validator, the sync committee's pay for each block, and the proposer's
    share (1/448 of reward unit times weight) of the votes credited for the first time: crediting lowers [open_votes] by as much. *)
Theorem C106_epoch_blocks (E : Env) (f : Fork) (s : BeaconState) (bs : list BeaconBlock) (t : BeaconState) :
  chk E = true -> ctx_sane E -> epoch_of E s < FAR_FUTURE_EPOCH -> same_epoch E f s bs t ->
  448 * wealth t + open_votes E t
  <= 448 * (wealth s + sumN (map brought_in bs) + report_rewards E f s t + lenN bs * sync_pool E s) + open_votes E s.
Proof. intros H1 H2 H3 H4. exact (epoch_issuance E f H1 H2 s bs t H3 H4). Qed.

Lemma missing_le part i : missing_weight part i <= 54.
Proof. unfold missing_weight, new_weight, new_flags. cbn [filter]. repeat match goal with |- context [if ?c then _ else _] => destruct c end; vm_compute; discriminate. Qed.
Lemma open_le (g w : N -> N) l : (forall i, w i <= 54) -> sumN (map (fun i => g i * w i) l) <= 54 * sumN (map g l).
Proof.
  intros H. induction l as [|x l IH]; [apply N.le_refl|]. cbn [map]. rewrite !sumN_cons, N.mul_add_distr_l. apply N.add_le_mono; [|exact IH].
  rewrite (N.mul_comm 54). apply N.mul_le_mono_l, H.
Qed.
(** Hence, however many blocks repeat however many votes: at most 54/448 of the reward units of the active validators of two epochs is
    paid for votes. *)
Theorem C106_votes_cap (E : Env) (f : Fork) (s : BeaconState) (bs : list BeaconBlock) (t : BeaconState) :
  chk E = true -> ctx_sane E -> epoch_of E s < FAR_FUTURE_EPOCH -> same_epoch E f s bs t ->
  448 * wealth t
  <= 448 * (wealth s + sumN (map brought_in bs) + report_rewards E f s t + lenN bs * sync_pool E s)
     + 54 * (sumN (map (base_reward E s) (active_set s (prev_epoch_of E s))) + sumN (map (base_reward E s) (active_set s (epoch_of E s)))).
Proof.
  intros H1 H2 H3 H4. pose proof (C106_epoch_blocks E f s bs t H1 H2 H3 H4) as G.
  assert (O : open_votes E s <= 54 * (sumN (map (base_reward E s) (active_set s (prev_epoch_of E s))) + sumN (map (base_reward E s) (active_set s (epoch_of E s))))).
  { unfold open_votes. rewrite N.mul_add_distr_l. apply N.add_le_mono; apply open_le; intros i; apply missing_le. }
  revert G O. generalize (448 * wealth t) (open_votes E t). intros. eapply N.le_trans; [apply (N.le_add_r _ n0)|]. eapply N.le_trans; [exact G|]. apply N.add_le_mono_l, O.
Qed.

(** one validator, altair: the block of slot 4 carries the vote of slot 3, the block of slot 5 repeats it *)
Definition issue_s : BeaconState := pair_after pair_env 1 Altair (pair_genesis pair_env 1 Altair) [Slot; Slot; Slot; Slot].
Definition issue_b1 : BeaconBlock := pair_block pair_env 1 [3] issue_s.
Definition issue_u : BeaconState := snd (process_block pair_env Altair issue_b1 issue_s).
Definition issue_v : BeaconState := snd (process_slots pair_env Altair (slot issue_u + 1) issue_u).
Definition issue_b2 : BeaconBlock := pair_block pair_env 1 [3] issue_v.
Definition issue_t : BeaconState := snd (process_block pair_env Altair issue_b2 issue_v).
Example C106_example : chk pair_env = true /\ ctx_sane pair_env /\ epoch_of pair_env issue_s < FAR_FUTURE_EPOCH
  /\ same_epoch pair_env Altair issue_s [issue_b1; issue_b2] issue_t /\ wealth issue_s < wealth issue_u /\ wealth issue_t <= wealth issue_u /\ open_votes pair_env issue_t < open_votes pair_env issue_s.
Proof.
  split; [reflexivity|]. split; [exact pair_sane|]. split; [vm_compute; reflexivity|]. split; [|vm_compute; repeat split; discriminate].
  assert (H1 : fst (process_block pair_env Altair issue_b1 issue_s) = Ok tt) by (vm_compute; reflexivity).
  assert (H2 : fst (process_slots pair_env Altair (slot issue_u + 1) issue_u) = Ok tt) by (vm_compute; reflexivity).
  assert (H3 : fst (process_block pair_env Altair issue_b2 issue_v) = Ok tt) by (vm_compute; reflexivity).
  change [issue_b1; issue_b2] with (([] ++ [issue_b1]) ++ [issue_b2]).
  apply se_block with (t := issue_v); [|unfold issue_t; rewrite <- H3; apply surjective_pairing].
  apply se_slot with (t := issue_u); [|vm_compute; reflexivity|unfold issue_v; rewrite <- H2; apply surjective_pairing|vm_compute; reflexivity].
  apply se_block with (t := issue_s); [apply se_start|unfold issue_u; rewrite <- H1; apply surjective_pairing].
Qed.

(** ** C107: the end of an epoch *)
(** Processing the end of an epoch adds at most the voters' share of the reward units, whatever else it does: penalties, slashings,
    credited deposits and consolidations included. *)
Theorem C107_epoch_end (E : Env) (f : Fork) (s t : BeaconState) :
  chk E = true -> ctx_sane E -> mainnet_scale E -> ctx_sane_att E -> hash_wf (hash E) -> f <> Phase0 ->
  within_bounds E f s -> 0 < slot s mod SLOTS_PER_EPOCH E -> process_epoch E f s = (Ok tt, t) ->
  wealth t <= wealth s + vote_gain_bound E s.
Proof. intros H1 H2 H3 H4 H5 H6 W Hp H. exact (proj1 (turn_wealth E f H1 H2 H3 H4 H5 H6 s t W Hp H)). Qed.
(** while finality is late, nothing *)
Theorem C107_leak (E : Env) (f : Fork) (s t : BeaconState) :
  chk E = true -> ctx_sane E -> mainnet_scale E -> ctx_sane_att E -> hash_wf (hash E) -> f <> Phase0 ->
  within_bounds E f s -> 0 < slot s mod SLOTS_PER_EPOCH E -> process_epoch E f s = (Ok tt, t) ->
  leaking E t = true -> wealth t <= wealth s.
Proof. intros H1 H2 H3 H4 H5 H6 W Hp H Hl. exact (proj2 (turn_wealth E f H1 H2 H3 H4 H5 H6 s t W Hp H) (or_introl Hl)). Qed.
(** electra: a penalty, a credited deposit and one validator that gains exactly the bound; and the same registry with finality late *)
Definition late_toy : BeaconState := set_slot 27 electra_toy.
Lemma late_toy_within : within_bounds tiny Electra late_toy.
Proof.
  constructor.
  - unfold state_shape. vm_compute. repeat split; congruence.
  - vm_compute. reflexivity.
  - split; [reflexivity|]. intros _. repeat split; reflexivity.
  - apply (all_of (fun v => v_effective_balance v <=? MAX_EFFECTIVE_BALANCE_ELECTRA tiny)); [intros x Hx; apply N.leb_le; exact Hx|vm_compute; reflexivity].
  - vm_compute. reflexivity.
  - vm_compute. discriminate.
  - apply (all_of (fun x => x <? 2 ^ 22)); [intros x Hx; apply N.ltb_lt; exact Hx|vm_compute; reflexivity].
  - vm_compute. reflexivity.
  - vm_compute. reflexivity.
  - vm_compute. repeat split; reflexivity.
  - vm_compute. repeat split; discriminate.
  - intros _. split; [intros d [<-|[]]; vm_compute; reflexivity|]. split; [vm_compute; reflexivity|].
    intros c [<-|[]]. split; vm_compute; reflexivity.
  - discriminate.
Qed.
Example C107_example : chk tiny = true /\ ctx_sane tiny /\ mainnet_scale tiny /\ ctx_sane_att tiny /\ hash_wf (hash tiny)
  /\ within_bounds tiny Electra electra_toy /\ 0 < slot electra_toy mod SLOTS_PER_EPOCH tiny
  /\ (let '(r, t) := process_epoch tiny Electra electra_toy in r = Ok tt /\ nthN (balances t) 4 = Some (29000000000 + vote_gain_bound tiny electra_toy) /\ wealth t < wealth electra_toy)
  /\ within_bounds tiny Electra late_toy /\ 0 < slot late_toy mod SLOTS_PER_EPOCH tiny
  /\ (let '(r, t) := process_epoch tiny Electra late_toy in r = Ok tt /\ leaking tiny t = true).
Proof.
  split; [reflexivity|]. split; [exact tiny_sane|]. split; [exact tiny_scale|]. split; [exact tiny_sane_att|]. split; [exact toy_hash_wf|].
  split; [exact electra_toy_within|]. split; [vm_compute; reflexivity|]. split; [vm_compute; repeat split; reflexivity|].
  split; [exact late_toy_within|]. split; [vm_compute; reflexivity|]. vm_compute. split; reflexivity.
Qed.

Print Assumptions C106_epoch_blocks.
Print Assumptions C106_votes_cap.
Print Assumptions C107_epoch_end.
Print Assumptions C107_leak.
