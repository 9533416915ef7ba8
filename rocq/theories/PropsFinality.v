(** * Property theorems: justification and finalization (C16, C17, C18) *)
From Verif Require Import Base BaseLemmas Types Ctx Env Helpers HelpersAltair HelpersElectra Block Epoch Transition Upgrade StLemmas
  SpecCommon SpecShuffle SpecHelpers SpecElectra SpecOps SpecBlock SpecAtt SpecFinality HelperProofs HelperProofs2 AttProofs FinalityProofs
  Toy ToyCtx Toy2 Toy3 PropsAtt.

(** ** C16: the exact update, for any balances that do not overflow *)
Theorem C16_weigh : forall (E : Env) (s : BeaconState) (total previous_target current_target : N),
  ctx_sane E -> ctx_sane_att E -> state_shape E s -> slot_small s -> 0 < slot s mod SLOTS_PER_EPOCH E -> justified_small s ->
  2 * total < 2 ^ 64 -> 3 * previous_target < 2 ^ 64 -> 3 * current_target < 2 ^ 64 ->
  weigh_justification_and_finalization E total previous_target current_target s
  = (Ok tt, finality_after E s (supermajority previous_target total) (supermajority current_target total)).
Proof. intros. apply weigh_run; assumption. Qed.

(** the whole step: the weights are the stakes that voted for the two targets *)
Theorem C16_process : forall (E : Env) (f : Fork) (s : BeaconState),
  ctx_sane E -> ctx_sane_att E -> hash_wf (hash E) -> state_shape E s -> slot_small s -> 0 < slot s mod SLOTS_PER_EPOCH E ->
  votes_recorded E f s -> stake_fits s -> justified_small s ->
  (epoch_of E s <= 1 -> process_justification_and_finalization E f s = (Ok tt, s))
  /\ (1 < epoch_of E s -> exists wp wc,
        target_weight E f s (prev_epoch_of E s) wp /\ target_weight E f s (epoch_of E s) wc
        /\ process_justification_and_finalization E f s
           = (Ok tt, finality_after E s (supermajority wp (active_balance E s)) (supermajority wc (active_balance E s)))).
Proof.
  intros E f s Hc Ha Hw Hsh Hs Hm Hv Hst Hj. split; intros He.
  - unfold process_justification_and_finalization. rewrite (run_rd _ _ _ (epoch_of E s)) by (apply current_epoch_ok; exact Hc).
    destruct (N.leb_spec (epoch_of E s) (GENESIS_EPOCH + 1)) as [_|Hgt]; [reflexivity|]. unfold GENESIS_EPOCH in Hgt. lia.
  - apply finality_run; assumption.
Qed.
(** the weight is a function of the state *)
Theorem C16_weight_unique : forall (E : Env) (f : Fork) (s : BeaconState) (e w w' : N),
  target_weight E f s e w -> target_weight E f s e w' -> w = w'.
Proof. intros. eapply target_weight_fun; eassumption. Qed.

(** along every chain of successful slot processing, blocks and upgrades, justified and finalized epochs never decrease;
    no bound on balances or epochs, with or without overflow checks *)
Theorem C16_epochs_never_decrease : forall (E : Env) (f g : Fork) (s s' : BeaconState),
  ctx_sane E -> chain E (f, s) (g, s') -> finality_ordered E s ->
  finality_ordered E s'
  /\ cp_epoch (previous_justified_checkpoint s) <= cp_epoch (previous_justified_checkpoint s')
  /\ cp_epoch (current_justified_checkpoint s) <= cp_epoch (current_justified_checkpoint s')
  /\ cp_epoch (finalized_checkpoint s) <= cp_epoch (finalized_checkpoint s').
Proof.
  intros E f g s s' Hc H Ho. destruct (chain_later E Hc _ _ H Ho) as (H1 & _ & H2 & H3 & H4). auto.
Qed.

(** with overflow checks, balances too large to compare are never compared *)
Theorem C16_overflow_checked : forall (E : Env) (s : BeaconState) (total previous_target current_target : N),
  ctx_sane E -> chk E = true -> 2 ^ 64 <= 2 * total \/ 2 ^ 64 <= 3 * previous_target \/ 2 ^ 64 <= 3 * current_target ->
  is_ok (fst (weigh_justification_and_finalization E total previous_target current_target s)) = false.
Proof.
  intros E s total pt ct Hc Hk Ho. destruct (weigh_justification_and_finalization E total pt ct s) as [r s'] eqn:H. destruct r as [[]| | |]; try reflexivity.
  exfalso. unfold weigh_justification_and_finalization in H.
  rewrite (run_rd _ _ _ (prev_epoch_of E s)) in H by (apply previous_epoch_ok; exact Hc).
  rewrite (run_rd _ _ _ (epoch_of E s)) in H by (apply current_epoch_ok; exact Hc).
  rewrite (run_rd _ _ _ (previous_justified_checkpoint s)) in H by reflexivity.
  rewrite (run_rd _ _ _ (current_justified_checkpoint s)) in H by reflexivity. rewrite !run_md in H.
  apply sbind_ok_inv in H as (x1 & t1 & H1 & H). apply inv_lift in H1 as [H1 _].
  apply sbind_ok_inv in H as (x2 & t2 & H2 & H). apply inv_lift in H2 as [H2 _].
  apply sbind_ok_inv in H as ([] & s2 & _ & H).
  apply sbind_ok_inv in H as (x3 & t3 & H3 & H). apply inv_lift in H3 as [H3 _].
  unfold mul, umul in H1, H2, H3. rewrite Hk in H1, H2, H3. pows.
  destruct (N.ltb_spec (pt * 3) 18446744073709551616); [|discriminate H1].
  destruct (N.ltb_spec (total * 2) 18446744073709551616); [|discriminate H2].
  destruct (N.ltb_spec (ct * 3) 18446744073709551616); [|discriminate H3]. lia.
Qed.
(** without them the products wrap: here no stake at all voted, and the current epoch becomes justified *)
Theorem C16_wrapped_balances_refuted : exists (E : Env) (s s' : BeaconState),
  ctx_sane E /\ state_shape E s /\ chk E = false
  /\ weigh_justification_and_finalization E (2 ^ 63) 0 0 s = (Ok tt, s')
  /\ supermajority 0 (2 ^ 63) = false
  /\ current_justified_checkpoint s' = checkpoint_of E s (epoch_of E s).
Proof.
  exists tiny_release, (tiny_state 4 15). eexists.
  split; [exact tiny_sane|]. split; [apply tiny_shape; vm_compute; discriminate|]. split; [reflexivity|].
  split; [vm_compute; reflexivity|]. split; vm_compute; reflexivity.
Qed.

(** a state at the end of epoch 3: epochs 1 and 2 are justified, three of four validators voted for both targets *)
Definition fin_toy : BeaconState :=
  set_previous_epoch_participation [3; 2; 7; 0] (set_current_epoch_participation [2; 3; 7; 1]
    (set_justification_bits [true; true; false; false]
      (set_current_justified_checkpoint (mkCheckpoint 2 (repeat 2 32)) (set_previous_justified_checkpoint (mkCheckpoint 1 (repeat 1 32))
        (tiny_state 4 15))))).
Lemma fin_toy_ok f : f <> Phase0 -> ctx_sane tiny /\ ctx_sane_att tiny /\ hash_wf (hash tiny) /\ state_shape tiny fin_toy /\ slot_small fin_toy
  /\ 0 < slot fin_toy mod SLOTS_PER_EPOCH tiny /\ votes_recorded tiny f fin_toy /\ stake_fits fin_toy /\ justified_small fin_toy
  /\ 1 < epoch_of tiny fin_toy /\ finality_ordered tiny fin_toy.
Proof.
  intros Hf. split; [exact tiny_sane|]. split; [exact tiny_sane_att|]. split; [exact toy_hash_wf|].
  split; [unfold state_shape, fin_toy; gs; vm_compute; repeat split; congruence|].
  split; [vm_compute; reflexivity|]. split; [vm_compute; reflexivity|].
  split; [destruct f; [contradiction|..]; vm_compute; auto|]. split; [vm_compute; reflexivity|]. split; [vm_compute; auto|].
  split; [vm_compute; reflexivity|]. vm_compute. repeat split; congruence.
Qed.
(** both targets have a supermajority; epoch 2 is finalized *)
Example C16_toy : process_justification_and_finalization tiny Deneb fin_toy = (Ok tt, finality_after tiny fin_toy true true)
  /\ finalized_checkpoint (finality_after tiny fin_toy true true) = mkCheckpoint 2 (repeat 2 32)
  /\ current_justified_checkpoint (finality_after tiny fin_toy true true) = mkCheckpoint 3 (to_le 32 13).
Proof. vm_compute. auto. Qed.
(** attestations accepted in phase0 satisfy [votes_recorded] *)
Lemma accepted_recorded (E : Env) f s a l d p : ctx_sane_att E -> slot_small s -> attestation_valid E f s a l ->
  pending_recorded E s (mkPending (at_aggregation_bits a) (at_data a) d p).
Proof.
  intros Ha Hs (H1 & H2 & _ & (com & H3 & H4 & _) & _). pose proof (timely_small E Ha f _ s Hs H1) as [_ Ht].
  unfold pending_recorded. cbn [pa_data pa_aggregation_bits]. split; [exact Ht|]. split; [destruct H1 as (_ & <- & _); exact H2|eauto].
Qed.
Example C16_toy_phase0 : votes_recorded tiny Phase0
  (set_current_epoch_attestations [mkPending (at_aggregation_bits att_toy) (at_data att_toy) 1 0] att_toy_state).
Proof.
  intros a Ha. cbn in Ha. destruct Ha as [<-|[]].
  destruct att_toy_valid as (l & Hl).
  apply (accepted_recorded tiny Altair att_toy_state att_toy l 1 0 tiny_sane_att eq_refl Hl).
Qed.
Example C16_toy_chain : exists s', chain tiny (Deneb, fin_toy) (Deneb, s') /\ slot s' = 16 /\ finalized_checkpoint s' = mkCheckpoint 2 (repeat 2 32).
Proof.
  eexists. split; [apply Relations.Relation_Operators.rt_step; eapply chain_slots with (target := 16); [reflexivity|vm_compute; reflexivity]|].
  vm_compute. auto.
Qed.

(** ** C17: an epoch becomes justified only with two thirds of the active stake behind its target *)
Theorem C17_supermajority : forall (E : Env) (f : Fork) (s s' : BeaconState),
  ctx_sane E -> ctx_sane_att E -> hash_wf (hash E) -> state_shape E s -> slot_small s -> 0 < slot s mod SLOTS_PER_EPOCH E ->
  votes_recorded E f s -> stake_fits s -> justified_small s ->
  process_justification_and_finalization E f s = (Ok tt, s') ->
  current_justified_checkpoint s' <> current_justified_checkpoint s ->
  exists e w, (e = epoch_of E s \/ e = prev_epoch_of E s)
    /\ current_justified_checkpoint s' = checkpoint_of E s e
    /\ target_weight E f s e w /\ 2 * active_balance E s <= 3 * w.
Proof.
  intros E f s s' Hc Ha Hw Hsh Hs Hm Hv Hst Hj H Hne.
  destruct (C16_process E f s Hc Ha Hw Hsh Hs Hm Hv Hst Hj) as [H1 H2].
  destruct (N.le_gt_cases (epoch_of E s) 1) as [He|He].
  { rewrite (H1 He) in H. apply (f_equal snd) in H. cbn [snd] in H. subst s'. contradiction. }
  destruct (H2 He) as (wp & wc & W1 & W2 & Hr). rewrite Hr in H. apply (f_equal snd) in H. cbn [snd] in H. subst s'.
  unfold finality_after in Hne |- *. gsh Hne. gs. unfold justified_after in *.
  destruct (supermajority wc (active_balance E s)) eqn:Hsc.
  - exists (epoch_of E s), wc. unfold supermajority in Hsc. apply N.leb_le in Hsc. auto.
  - destruct (supermajority wp (active_balance E s)) eqn:Hsp; [|contradiction].
    exists (prev_epoch_of E s), wp. unfold supermajority in Hsp. apply N.leb_le in Hsp. auto.
Qed.
(** the same for the justification bits: bit 0 speaks about the current epoch, bit 1 about the previous one *)
Theorem C17_bits : forall (E : Env) (f : Fork) (s s' : BeaconState) (w : N),
  ctx_sane E -> ctx_sane_att E -> hash_wf (hash E) -> state_shape E s -> slot_small s -> 0 < slot s mod SLOTS_PER_EPOCH E ->
  votes_recorded E f s -> stake_fits s -> justified_small s -> 1 < epoch_of E s ->
  process_justification_and_finalization E f s = (Ok tt, s') ->
  (target_weight E f s (epoch_of E s) w -> (nthN (justification_bits s') 0 = Some true <-> 2 * active_balance E s <= 3 * w))
  /\ (target_weight E f s (prev_epoch_of E s) w ->
      (nthN (justification_bits s') 1 = Some true <-> nthN (justification_bits s) 0 = Some true \/ 2 * active_balance E s <= 3 * w))
  /\ nthN (justification_bits s') 2 = nthN (justification_bits s) 1 /\ nthN (justification_bits s') 3 = nthN (justification_bits s) 2.
Proof.
  intros E f s s' w Hc Ha Hw Hsh Hs Hm Hv Hst Hj He H.
  destruct (C16_process E f s Hc Ha Hw Hsh Hs Hm Hv Hst Hj) as [_ H2].
  destruct (H2 He) as (wp & wc & W1 & W2 & Hr). rewrite Hr in H. apply (f_equal snd) in H. cbn [snd] in H. subst s'.
  unfold finality_after. gs. destruct Hsh as (_ & _ & _ & _ & Hl & _).
  destruct (justification_bits s) as [|b0 [|b1 [|b2 [|b3 [|]]]]]; unfold lenN in Hl; cbn [length] in Hl; try lia. cbn [bits_after].
  split; [|split; [|split; reflexivity]]; intros W.
  - rewrite (target_weight_fun _ _ _ _ _ _ W W2). cbn [nthN]. unfold supermajority. rewrite <- N.leb_le. split; [intros [= ->]; reflexivity|intros ->; reflexivity].
  - rewrite (target_weight_fun _ _ _ _ _ _ W W1). change (nthN [supermajority wc (active_balance E s); supermajority wp (active_balance E s) || b0; b1; b2] 1)
      with (Some (supermajority wp (active_balance E s) || b0)). change (nthN [b0; b1; b2; b3] 0) with (Some b0).
    rewrite <- N.leb_le. fold (supermajority wp (active_balance E s)). destruct (supermajority wp (active_balance E s)), b0; cbn [orb]; intuition congruence.
Qed.
Example C17_toy : current_justified_checkpoint (finality_after tiny fin_toy true true) <> current_justified_checkpoint fin_toy.
Proof. vm_compute. discriminate. Qed.
(** with half of the validators the target is not justified *)
Example C17_toy_half :
  current_justified_checkpoint (snd (process_justification_and_finalization tiny Deneb
    (set_previous_epoch_participation [2; 2; 0; 0] (set_current_epoch_participation [2; 0; 2; 1] fin_toy)))) = mkCheckpoint 2 (repeat 2 32).
Proof. vm_compute. reflexivity. Qed.

(** ** C18: only a checkpoint that was justified before is finalized, at most three epochs back, with every epoch in between justified *)
Theorem C18_finalized_was_justified : forall (E : Env) (f : Fork) (s s' : BeaconState),
  ctx_sane E -> ctx_sane_att E -> hash_wf (hash E) -> state_shape E s -> slot_small s -> 0 < slot s mod SLOTS_PER_EPOCH E ->
  votes_recorded E f s -> stake_fits s -> justified_small s ->
  process_justification_and_finalization E f s = (Ok tt, s') ->
  finalized_checkpoint s' <> finalized_checkpoint s ->
  exists top depth : N,
    ((top = 0 /\ finalized_checkpoint s' = current_justified_checkpoint s) \/ (top = 1 /\ finalized_checkpoint s' = previous_justified_checkpoint s))
    /\ top < depth <= 3 /\ depth <= top + 2
    /\ cp_epoch (finalized_checkpoint s') + depth = epoch_of E s
    /\ forall k, top <= k <= depth -> nthN (justification_bits s') k = Some true.
Proof.
  intros E f s s' Hc Ha Hw Hsh Hs Hm Hv Hst Hj H Hne.
  destruct (C16_process E f s Hc Ha Hw Hsh Hs Hm Hv Hst Hj) as [H1 H2].
  destruct (N.le_gt_cases (epoch_of E s) 1) as [He|He].
  { rewrite (H1 He) in H. apply (f_equal snd) in H. cbn [snd] in H. subst s'. contradiction. }
  destruct (H2 He) as (wp & wc & _ & _ & Hr). rewrite Hr in H. apply (f_equal snd) in H. cbn [snd] in H. subst s'.
  unfold finality_after in Hne |- *. gsh Hne. gs. destruct Hsh as (_ & _ & _ & _ & Hl & _).
  destruct (justification_bits s) as [|b0 [|b1 [|b2 [|b3 [|]]]]]; unfold lenN in Hl; cbn [length] in Hl; try lia. cbn [bits_after] in *.
  clear Hr H1 H2.
  set (j0 := supermajority wc (active_balance E s)) in *. set (j1 := supermajority wp (active_balance E s) || b0) in *. clearbody j0 j1.
  unfold finalized_after in *. cbn [nth] in *.
  assert (Hk : forall top depth, (forall k, top <= k <= depth -> k = 0 /\ j0 = true \/ k = 1 /\ j1 = true \/ k = 2 /\ b1 = true \/ k = 3 /\ b2 = true) ->
     forall k, top <= k <= depth -> nthN [j0; j1; b1; b2] k = Some true).
  { intros top depth Hx k Hk. destruct (Hx k Hk) as [[-> ->]|[[-> ->]|[[-> ->]|[-> ->]]]]; reflexivity. }
  destruct (j0 && j1 && (cp_epoch (current_justified_checkpoint s) + 1 =? epoch_of E s)) eqn:C1.
  { apply andb_true_iff in C1 as [C1 Ce]. apply andb_true_iff in C1 as [-> ->]. apply N.eqb_eq in Ce.
    exists 0, 1. split; [auto|]. split; [lia|]. split; [lia|]. split; [exact Ce|]. apply Hk. intros k Hk'. lia. }
  destruct (j0 && j1 && b1 && (cp_epoch (current_justified_checkpoint s) + 2 =? epoch_of E s)) eqn:C2.
  { apply andb_true_iff in C2 as [C2 Ce]. apply andb_true_iff in C2 as [C2 ->]. apply andb_true_iff in C2 as [-> ->]. apply N.eqb_eq in Ce.
    exists 0, 2. split; [auto|]. split; [lia|]. split; [lia|]. split; [exact Ce|]. apply Hk. intros k Hk'. lia. }
  destruct (j1 && b1 && (cp_epoch (previous_justified_checkpoint s) + 2 =? epoch_of E s)) eqn:C3.
  { apply andb_true_iff in C3 as [C3 Ce]. apply andb_true_iff in C3 as [-> ->]. apply N.eqb_eq in Ce.
    exists 1, 2. split; [auto|]. split; [lia|]. split; [lia|]. split; [exact Ce|]. apply Hk. intros k Hk'. lia. }
  destruct (j1 && b1 && b2 && (cp_epoch (previous_justified_checkpoint s) + 3 =? epoch_of E s)) eqn:C4; [|contradiction].
  apply andb_true_iff in C4 as [C4 Ce]. apply andb_true_iff in C4 as [C4 ->]. apply andb_true_iff in C4 as [-> ->]. apply N.eqb_eq in Ce.
  exists 1, 3. split; [auto|]. split; [lia|]. split; [lia|]. split; [exact Ce|]. apply Hk. intros k Hk'. lia.
Qed.
Example C18_toy : finalized_checkpoint (snd (process_justification_and_finalization tiny Capella fin_toy)) <> finalized_checkpoint fin_toy.
Proof. vm_compute. discriminate. Qed.

Print Assumptions C16_weigh.
Print Assumptions C16_process.
Print Assumptions C16_weight_unique.
Print Assumptions C16_epochs_never_decrease.
Print Assumptions C16_overflow_checked.
Print Assumptions C16_wrapped_balances_refuted.
Print Assumptions C17_supermajority.
Print Assumptions C17_bits.
Print Assumptions C18_finalized_was_justified.
