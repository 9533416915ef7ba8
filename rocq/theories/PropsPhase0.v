(** * Property theorems: the rewards and penalties of phase0 (C32) *)
From Verif Require Import Base BaseLemmas Types Ctx Env Helpers HelpersAltair HelpersElectra Block Epoch Transition StLemmas Frame
  SpecCommon SpecShuffle SpecHelpers SpecOps SpecElectra SpecAtt SpecFinality SpecSlots SpecEpoch SpecPhase0
  HelperProofs HelperProofs2 OpsProofs ElectraProofs SlashProofs AttProofs FrameProofs FinalityProofs EpochProofs RewardProofs Phase0Proofs
  Toy ToyCtx Toy2 PropsAtt PropsFinality PropsEpoch.
From Coq Require Import Permutation.

(** the exact balances after the rewards of a phase0 epoch *)
Theorem C32_phase0_exact : forall (E : Env) (s : BeaconState),
  ctx_sane E -> ctx_sane_att E -> hash_wf (hash E) -> state_shape E s -> slot_small s -> 0 < slot s mod SLOTS_PER_EPOCH E ->
  epoch_of E s <> 0 -> lenN (balances s) = lenN (validators s) -> cp_epoch (finalized_checkpoint s) <= prev_epoch_of E s ->
  stake_fits s -> rewards_fit_phase0 E s -> previous_votes_sound E s ->
  exists ls lt lh first,
    voters E s right_source ls /\ voters E s (right_target E s) lt /\ voters E s (right_head E s) lh
    /\ (forall i, In i ls -> first_vote E s i (first i))
    /\ exists bs, process_rewards_and_penalties E Phase0 s = (Ok tt, set_balances bs s) /\ lenN bs = lenN (balances s)
       /\ forall i b, nthN (balances s) i = Some b -> nthN bs i = Some (balance_after_phase0 E s ls lt lh first i b).
Proof.
  intros E s Hc Ha Hw Hsh Hs Hm He Hl Hf Hst Hr Hv. apply phase0_run; try assumption. unfold ready0. auto.
Qed.
(** the voters and their first votes are determined, so the balances are *)
Theorem C32_voters_determined : forall (E : Env) (s : BeaconState) (right : PendingAttestation -> Prop) (l k : list N),
  voters E s right l -> voters E s right k -> Permutation l k.
Proof. intros E s right l k [H1 H2] [H3 H4]. apply NoDup_Permutation; [exact H1|exact H3|]. intros i. rewrite H2, H4. reflexivity. Qed.
Theorem C32_first_vote_determined : forall (E : Env) (s : BeaconState) (i : N) (a b : PendingAttestation),
  first_vote E s i a -> first_vote E s i b -> a = b.
Proof.
  intros E s i a b (Ha & u & w & H1 & A1 & A2) (Hb & u' & w' & H2 & B1 & B2). rewrite H1 in H2. clear H1.
  revert u' w' H2 B1 B2. induction u as [|c u IH]; intros [|c' u'] w' H B1 B2; cbn [app] in H.
  - congruence.
  - injection H as -> ->. exfalso. specialize (B1 c' (or_introl eq_refl) Ha). assert (In b (u' ++ b :: w')) by (apply in_or_app; right; left; reflexivity).
    specialize (A2 b H Hb). lia.
  - injection H as -> <-. exfalso. specialize (A1 b (or_introl eq_refl) Hb). assert (In a (u ++ a :: w)) by (apply in_or_app; right; left; reflexivity). specialize (B2 a H Ha). lia.
  - injection H as -> H. apply (IH (fun x Hx => A1 x (or_intror Hx)) u' w' H); [intros x Hx; apply B1; right; exact Hx|exact B2].
Qed.
(** a validator that is neither eligible nor included a vote keeps its balance under the formula *)
Theorem C32_phase0_untouched : forall (E : Env) (s : BeaconState) ls lt lh first i b,
  eligible_at E s i = false -> ~ In i ls -> (forall j, In j ls -> pa_proposer_index (first j) <> i) -> balance_after_phase0 E s ls lt lh first i b = b.
Proof.
  intros E s ls lt lh first i b He Hi Hp. unfold balance_after_phase0, vote_gain, vote_loss, leak_loss, inclusion_gain. rewrite He, andb_false_r. cbn [andb].
  rewrite (proj2 (memN_false i ls) Hi). assert (Hf : filter (fun j => pa_proposer_index (first j) =? i) ls = []).
  { clear Hi. induction ls as [|j l IH]; [reflexivity|]. cbn [filter]. destruct (N.eqb_spec (pa_proposer_index (first j)) i) as [Hc|_]; [exfalso; exact (Hp j (or_introl eq_refl) Hc)|].
    apply IH. intros k Hk. apply Hp. right; exact Hk. }
  rewrite Hf. cbn. lia.
Qed.

(** epoch 3 ends; in the previous epoch the committee of slot 8 voted, the first member also in a vote with a wrong head that was included earlier *)
Definition votes_toy : BeaconState :=
  set_previous_epoch_attestations
    [mkPending [true; true] (mkAttData 8 0 (to_le 32 9) zero_cp (mkCheckpoint 2 (to_le 32 9))) 2 5;
     mkPending [true; false] (mkAttData 8 0 (to_le 32 77) zero_cp (mkCheckpoint 2 (to_le 32 9))) 1 6] (tiny_state 8 15).
Lemma votes_toy_sound : previous_votes_sound tiny votes_toy.
Proof.
  assert (Hsh : state_shape tiny votes_toy) by (exact (tiny_shape 8 15 ltac:(vm_compute; discriminate))).
  destruct (get_beacon_committee tiny votes_toy 8 0) as [com| | |] eqn:Hcom; [|vm_compute in Hcom; discriminate..].
  assert (Hlen : lenN com = 2). { vm_compute in Hcom. injection Hcom as <-. reflexivity. }
  apply (committee_spec tiny tiny_sane toy_hash_wf votes_toy 8 0 com Hsh) in Hcom; [|vm_compute; reflexivity|vm_compute; reflexivity].
  intros a Ha. cbn in Ha. destruct Ha as [<-|[<-|[]]]; (split; [split; [vm_compute; reflexivity|split; [vm_compute; reflexivity|exists com; split; [exact Hcom|cbn; symmetry; exact Hlen]]]|]);
    (split; [vm_compute; reflexivity|split; vm_compute; [reflexivity|discriminate]]).
Qed.
Lemma votes_toy_fit : rewards_fit_phase0 tiny votes_toy.
Proof.
  unfold rewards_fit_phase0. cbv zeta. split; [vm_compute; discriminate|]. split; [vm_compute; discriminate|].
  split; [apply (below_all _ (fun i => effective_balance_of votes_toy i * BASE_REWARD_FACTOR tiny <? 2 ^ 64)); [intros x Hx; apply N.ltb_lt; exact Hx|vm_compute; reflexivity]|].
  split; [apply (below_all _ (fun i => effective_balance_of votes_toy i * (prev_epoch_of tiny votes_toy - cp_epoch (finalized_checkpoint votes_toy)) <? 2 ^ 64)); [intros x Hx; apply N.ltb_lt; exact Hx|vm_compute; reflexivity]|].
  split; [apply (below_all _ (fun i => 7 * base0 tiny votes_toy i + effective_balance_of votes_toy i * (prev_epoch_of tiny votes_toy - cp_epoch (finalized_checkpoint votes_toy)) / INACTIVITY_PENALTY_QUOTIENT tiny <? 2 ^ 64));
    [intros x Hx; apply N.ltb_lt; exact Hx|vm_compute; reflexivity]|].
  intros i b Hb. assert (Hi : i < 8) by (apply nthN_some in Hb; exact Hb). assert (b = 32000000000) by (apply nthN_In in Hb; apply repeat_spec in Hb; exact Hb). subst b. clear Hb. revert i Hi.
  apply (below_all _ (fun i => 32000000000 + 3 * (base0 tiny votes_toy i * (1 + N.max (sumN (map v_effective_balance (validators votes_toy))) (EFFECTIVE_BALANCE_INCREMENT tiny) / EFFECTIVE_BALANCE_INCREMENT tiny))
     + sumN (map (base0 tiny votes_toy) (rangeN (lenN (validators votes_toy)))) <? 2 ^ 64)); [intros x Hx; apply N.ltb_lt; exact Hx|vm_compute; reflexivity].
Qed.
Example C32_phase0_toy : state_shape tiny votes_toy /\ slot_small votes_toy /\ 0 < slot votes_toy mod SLOTS_PER_EPOCH tiny /\ epoch_of tiny votes_toy <> 0
  /\ lenN (balances votes_toy) = lenN (validators votes_toy) /\ cp_epoch (finalized_checkpoint votes_toy) <= prev_epoch_of tiny votes_toy
  /\ stake_fits votes_toy /\ rewards_fit_phase0 tiny votes_toy /\ previous_votes_sound tiny votes_toy
  /\ let '(r, s') := process_rewards_and_penalties tiny Phase0 votes_toy in
     map (fun '(a, b) => a ?= b) (combine (balances s') (balances votes_toy)) = [Lt; Lt; Lt; Lt; Lt; Lt; Gt; Gt].
Proof.
  split; [exact (tiny_shape 8 15 ltac:(vm_compute; discriminate))|]. split; [vm_compute; reflexivity|]. split; [vm_compute; reflexivity|]. split; [vm_compute; discriminate|].
  split; [vm_compute; reflexivity|]. split; [vm_compute; discriminate|]. split; [vm_compute; reflexivity|]. split; [exact votes_toy_fit|]. split; [exact votes_toy_sound|].
  vm_compute. reflexivity.
Qed.

Print Assumptions C32_phase0_exact.
Print Assumptions C32_voters_determined.
Print Assumptions C32_first_vote_determined.
Print Assumptions C32_phase0_untouched.
