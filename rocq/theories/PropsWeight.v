(** * Voting weight follows the balance, and only at the end of an epoch *)
From Verif Require Import Base BaseLemmas Types Ctx Env Helpers HelpersAltair HelpersElectra Block Epoch Transition Upgrade StLemmas
  SpecCommon SpecHelpers SpecElectra SpecEpoch SpecFinality SpecSafety SpecAuthority SpecEntry SpecWeight Frame HelperProofs HelperProofs2 SlotProofs SpecHistory HistoryProofs IssuanceProofs WeightProofs CappedProofs Toy Toy2 Toy3 PropsEpoch PropsBlock PropsAuthority PropsEntry.

Lemma passes_later p l a b : passes l a b -> passes (p :: l) a b.
Proof. intros (l1 & l2 & ->). exists (p :: l1), l2. reflexivity. Qed.
Lemma fork_eq_electra (g : Fork) : g = Electra \/ g <> Electra. Proof. destruct g; (left; reflexivity) || (right; discriminate). Qed.
(** Along any chain of slots, blocks and upgrades, the voting weight of a validator registered at the start is the weight it had at the start, or the weight it was given at
    the end of an epoch of the chain, where it follows the balance of the validator at that moment, or zero if it was
    taken back by the upgrade to electra, which does this only to those who were never activated. *)
Theorem C127_weight_set_at_epoch_ends (E : Env) p0 z w i : ctx_sane E -> chk E = true -> margin_sane E -> walk E p0 (z :: w) -> i < lenN (validators (snd p0)) ->
  i < lenN (validators (snd z))
  /\ (effective_balance_of (snd z) i = effective_balance_of (snd p0) i
      \/ (exists f s t v b, epoch_ends E (z :: w) f s t /\ nthN (validators t) i = Some v /\ nthN (balances t) i = Some b
                            /\ follows E f v b /\ effective_balance_of (snd z) i = v_effective_balance v)
      \/ (effective_balance_of (snd z) i = 0 /\ exists s t v, passes (z :: w) (Deneb, s) (Electra, t) /\ nthN (validators s) i = Some v /\ v_activation_epoch v = FAR_FUTURE_EPOCH)).
Proof.
  intros Hc Hk Hm H. remember (z :: w) as zw eqn:Ez. revert z w Ez.
  induction H as [|p q l H IH Hs]; intros z w Ez Hi; injection Ez as <- <-; [split; [exact Hi|left; reflexivity]|].
  destruct (IH p l eq_refl Hi) as [L D].
  assert (Same : i < lenN (validators (snd q)) -> effective_balance_of (snd q) i = effective_balance_of (snd p) i ->
     i < lenN (validators (snd q)) /\ (effective_balance_of (snd q) i = effective_balance_of (snd p0) i
      \/ (exists f s t v b, epoch_ends E (q :: p :: l) f s t /\ nthN (validators t) i = Some v /\ nthN (balances t) i = Some b
                            /\ follows E f v b /\ effective_balance_of (snd q) i = v_effective_balance v)
      \/ (effective_balance_of (snd q) i = 0 /\ exists s t v, passes (q :: p :: l) (Deneb, s) (Electra, t) /\ nthN (validators s) i = Some v /\ v_activation_epoch v = FAR_FUTURE_EPOCH))).
  { intros A B. split; [exact A|]. rewrite B. destruct D as [D|[(f & s & t & v & b & (D1 & D2) & D3)|(D1 & s & t & v & D2 & D3)]]; [left; exact D|right; left|right; right].
    - exists f, s, t, v, b. split; [split; [apply passes_later; exact D1|exact D2]|exact D3].
    - split; [exact D1|]. exists s, t, v. split; [apply passes_later; exact D2|exact D3]. }
  destruct Hs as [f s t Hb P|f b s r t P|f g s t P Hne]; cbn [snd] in *.
  - pose proof (slot_longer E f s t _ P i L) as L'. pose proof (slot_weight E Hc Hk f s t Hm Hb P) as S.
    destruct ((slot s + 1) mod SLOTS_PER_EPOCH E =? 0) eqn:Hq.
    + split; [exact L'|]. right; left. destruct (S i L') as (v & b & S1 & S2 & S3). exists f, s, t, v, b.
      split; [split; [exists [], l; reflexivity|split; [exact P|apply N.eqb_eq; exact Hq]]|]. repeat split; try assumption; try apply S3. unfold effective_balance_of. rewrite S1. reflexivity.
    + apply Same; [exact L'|]. unfold effective_balance_of. rewrite S. reflexivity.
  - pose proof (evp_block E f b s) as V. rewrite P in V. cbn [snd] in V. apply calm_evo in V. apply Same; [pose proof (cm_len _ _ V); lia|]. apply (cm_eff _ _ V). exact L.
  - destruct (fork_eq_electra g) as [->|Hg].
    + inversion P as [| | | | | | |s0 t0 Hu]; subst; try congruence. destruct (nthN_lt _ _ L) as (v & Hv).
      destruct (proj1 (call_across E (Deneb, s) (Electra, t) (call_electra E s t Hu)) i v Hv) as (v' & Hv' & _). cbn [snd] in Hv'. pose proof (nthN_some _ _ _ Hv') as L'.
      destruct (electra_drops E s t Hu i v' Hv') as (u & Hu' & Dr). assert (u = v) as -> by congruence.
      destruct (proj1 (electra_tame E s t Hu) i v Hv) as (u & Hw & _ & _ & Ta). assert (u = v') as -> by congruence.
      destruct Ta as [Ta|Ta]; [apply Same; [exact L'|]; unfold effective_balance_of; rewrite Hv, Hv'; exact Ta|].
      destruct Dr as [Dr|Dr]; [apply Same; [exact L'|]; unfold effective_balance_of; rewrite Hv, Hv'; exact Dr|].
      split; [exact L'|]. right; right. split; [unfold effective_balance_of; rewrite Hv'; exact Dr|]. exists s, t, v. split; [exists [], l; reflexivity|split; assumption].
    + pose proof (upgrade_same E f g s t P Hne Hg) as V. apply Same; [rewrite V; exact L|]. unfold effective_balance_of. rewrite V. reflexivity.
Qed.
Lemma walk_mono (E : Env) p0 p l : ctx_sane E -> walk E p0 (p :: l) -> slot (snd p0) <= slot (snd p).
Proof.
  intros Hc H. remember (p :: l) as zw eqn:Ez. revert p l Ez. induction H as [|p q l H IH Hs]; intros z w Ez; injection Ez as <- <-; [apply N.le_refl|].
  eapply N.le_trans; [exact (IH p l eq_refl)|exact (step_mono E p q Hc Hs)].
Qed.
(** Within an epoch the total weight of the active validators, against which the majorities of two thirds are measured, is fixed, whatever the blocks hold. *)
Theorem C127_total_fixed_within_epoch (E : Env) p0 z w : ctx_sane E -> chk E = true -> walk E p0 (z :: w) ->
  epoch_of E (snd p0) < FAR_FUTURE_EPOCH -> epoch_of E (snd z) = epoch_of E (snd p0) -> active_balance E (snd z) = active_balance E (snd p0).
Proof.
  intros Hc Hk H. remember (z :: w) as zw eqn:Ez. revert z w Ez.
  induction H as [|p q l H IH Hs]; intros z w Ez Hf He; injection Ez as <- <-; [reflexivity|].
  assert (Hep : epoch_of E (snd p) = epoch_of E (snd p0)).
  { pose proof (walk_mono E p0 p l Hc H) as M1. pose proof (step_mono E p q Hc Hs) as M2. pose proof (spe_pos E Hc) as Hp. unfold epoch_of in *.
    pose proof (N.div_le_mono _ _ (SLOTS_PER_EPOCH E) Hp M1). pose proof (N.div_le_mono _ _ (SLOTS_PER_EPOCH E) Hp M2). lia. }
  rewrite <- (IH p l eq_refl); [|exact Hf|exact Hep]. clear IH.
  assert (Heq : epoch_of E (snd q) = epoch_of E (snd p)) by congruence. rewrite <- Hep in Hf.
  destruct Hs as [f s t Hb P|f b s r t P|f g s t P Hne]; cbn [snd] in *.
  - pose proof (slot_held E f Hc s t Hb P Heq) as Hd. unfold active_balance, effective_sum, active_set, effective_balance_of. rewrite Heq, (hd_validators _ _ _ Hd). reflexivity.
  - pose proof (evp_block E f b s) as V. rewrite P in V. cbn [snd] in V. apply (level_balance E). exact (level_evo E f Hk s t Hf V).
  - destruct (fork_eq_electra g) as [->|Hg].
    + inversion P as [| | | | | | |s0 t0 Hu]; subst; try congruence. unfold active_balance. rewrite Heq. f_equal. apply tame_sum; [exact Hf|exact (electra_tame E s t Hu)].
    + pose proof (upgrade_same E f g s t P Hne Hg) as V. unfold active_balance, effective_sum, active_set, effective_balance_of. rewrite Heq, V. reflexivity.
Qed.
(** At the end of every epoch the weight of every validator, new ones included, follows its balance. *)
Theorem C127_follows_at_epoch_ends (E : Env) f s t i : ctx_sane E -> chk E = true -> margin_sane E -> slot s + 1 < 2 ^ 64 ->
  process_slots E f (slot s + 1) s = (Ok tt, t) -> (slot s + 1) mod SLOTS_PER_EPOCH E = 0 -> i < lenN (validators t) ->
  exists v b, nthN (validators t) i = Some v /\ nthN (balances t) i = Some b /\ follows E f v b.
Proof.
  intros Hc Hk Hm Hb P Hq Hi. pose proof (slot_weight E Hc Hk f s t Hm Hb P) as S. rewrite Hq in S. exact (S i Hi).
Qed.

(** the margin of the networks is sane; an epoch ends in which validator 0 lost stake by a slashing, validator 1 lost less than the margin and keeps its weight,
    validator 3 is at the cap, and validators 4 and 5 had less stake than their weight said *)
Definition weighed_after : BeaconState := snd (process_slots tiny Altair 16 epoch_toy).
Example C127_example : ctx_sane tiny /\ chk tiny = true /\ margin_sane tiny /\ walk tiny (Altair, epoch_toy) [(Altair, weighed_after); (Altair, epoch_toy)]
  /\ (slot epoch_toy + 1) mod SLOTS_PER_EPOCH tiny = 0
  /\ map v_effective_balance (validators epoch_toy) = [32000000000; 16000000000; 32000000000; 32000000000; 32000000000; 32000000000]
  /\ balances weighed_after = [6995468481; 15997733446; 32000000000; 35000000000; 29002443758; 7]
  /\ map v_effective_balance (validators weighed_after) = [6000000000; 16000000000; 32000000000; 32000000000; 29000000000; 0].
Proof.
  split; [exact tiny_sane|]. split; [reflexivity|]. split; [vm_compute; discriminate|]. split; [apply C114_example|]. repeat split; vm_compute; reflexivity.
Qed.
(** a block slashes validator 3: its stake falls at once, the weights and their total stay *)
Definition punished : BeaconState := snd (process_block tiny Capella (guilty_block Capella) slash_toy).
Example C127_example_total : walk tiny (Capella, slash_toy) [(Capella, punished); (Capella, slash_toy)]
  /\ epoch_of tiny slash_toy < FAR_FUTURE_EPOCH /\ epoch_of tiny punished = epoch_of tiny slash_toy
  /\ map v_slashed (validators slash_toy) = [false; false; false; false] /\ map v_slashed (validators punished) = [false; false; false; true]
  /\ match nthN (balances slash_toy) 3, nthN (balances punished) 3 with Some a, Some b => b <? a | _, _ => false end = true
  /\ active_balance tiny punished = active_balance tiny slash_toy.
Proof.
  split; [apply one_block|]. repeat split; vm_compute; reflexivity.
Qed.

Print Assumptions C127_weight_set_at_epoch_ends.
Print Assumptions C127_total_fixed_within_epoch.
Print Assumptions C127_follows_at_epoch_ends.
