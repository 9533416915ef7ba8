(** * Eth1 votes along a chain of calls (proof file; no model definitions) *)
From Verif Require Import Base BaseLemmas Types Ctx Env Helpers HelpersAltair HelpersElectra Block Epoch Transition Upgrade StLemmas
  SpecCommon SpecShuffle SpecHelpers SpecElectra SpecOps SpecBlock SpecEpoch SpecFlow SpecAtt SpecQueues SpecFinality SpecSafety SpecAuthority SpecPayload SpecBallots
  Frame HelperProofs HelperProofs2 OpsProofs BlockProofs SlotProofs SafetyProofs AuthorityProofs PayloadProofs.

(** ** What only the vote of a block, the block header and the end of a period rewrite *)
Record vk (s t : BeaconState) : Prop := mkVk {
  vk_v : eth1_data_votes t = eth1_data_votes s; vk_e : eth1_data t = eth1_data s;
  vk_b : latest_block_header t = latest_block_header s; vk_s : slot t = slot s }.
Lemma vk_refl s : vk s s. Proof. constructor; reflexivity. Qed.
Lemma vk_trans a b c : vk a b -> vk b c -> vk a c. Proof. intros [A1 A2 A3 A4] [B1 B2 B3 B4]; constructor; congruence. Qed.
Create HintDb vkdb.
Ltac vk1 :=
  match goal with
  | |- forall _, _ => intro
  | |- pres vk (sbind _ _) => apply (pres_bind vk vk_trans)
  | |- pres vk (rd _) => apply (pres_rd vk vk_refl)
  | |- pres vk (lift _) => apply (pres_lift vk vk_refl)
  | |- pres vk (sret _) => apply (pres_ret vk vk_refl)
  | |- pres vk (swhen _ _) => apply (pres_when vk vk_refl)
  | |- pres vk (sfor _ _) => apply (pres_for vk vk_refl vk_trans)
  | |- pres vk (sfold _ _ _) => apply (pres_fold vk vk_refl vk_trans)
  | |- pres vk (match ?x with _ => _ end) => destruct x
  | |- pres vk (md _) => apply pres_md; intro; (constructor; reflexivity)
  | |- pres vk (md _) => apply pres_md; intro; cbv beta; match goal with |- vk _ (if ?c then _ else _) => destruct c; constructor; reflexivity end
  | |- pres vk _ => solve [eauto with vkdb]
  end.
Ltac vkt := repeat vk1.
Section Hk.
Variables (E : Env) (f : Fork).
Lemma vk_inc i d : pres vk (increase_balance E i d). Proof. unfold increase_balance. vkt. Qed.
Lemma vk_dec i d : pres vk (decrease_balance E i d). Proof. unfold decrease_balance. vkt. Qed.
Lemma vk_mod i g : pres vk (mod_validator i g). Proof. unfold mod_validator. vkt. Qed.
Hint Resolve vk_inc vk_dec vk_mod : vkdb.
Lemma vk_churn b : pres vk (compute_exit_epoch_and_update_churn E b). Proof. unfold compute_exit_epoch_and_update_churn. vkt. Qed.
Lemma vk_cchurn b : pres vk (compute_consolidation_epoch_and_update_churn E b). Proof. unfold compute_consolidation_epoch_and_update_churn. vkt. Qed.
Hint Resolve vk_churn vk_cchurn : vkdb.
Lemma vk_exit0 i : pres vk (initiate_validator_exit E i). Proof. unfold initiate_validator_exit. vkt. Qed.
Lemma vk_exit1 i : pres vk (initiate_validator_exit_electra E i). Proof. unfold initiate_validator_exit_electra. vkt. Qed.
Hint Resolve vk_exit0 vk_exit1 : vkdb.
Lemma vk_exit i : pres vk (initiate_exit E f i). Proof. unfold initiate_exit. vkt. Qed.
Hint Resolve vk_exit : vkdb.
Lemma vk_slash i w : pres vk (slash_validator E f i w). Proof. unfold slash_validator. vkt. Qed.
Hint Resolve vk_slash : vkdb.
Lemma vk_pslash op : pres vk (process_proposer_slashing E f op). Proof. unfold process_proposer_slashing. vkt. Qed.
Lemma vk_aslash op : pres vk (process_attester_slashing E f op). Proof. unfold process_attester_slashing. vkt. Qed.
Lemma vk_flag c fl i n fw : pres vk (attestation_flag_step E c fl i n fw).
Proof. unfold attestation_flag_step. vkt; apply pres_md; intro; destruct c; constructor; reflexivity. Qed.
Hint Resolve vk_flag : vkdb.
Lemma vk_att a : pres vk (process_attestation E f a).
Proof. unfold process_attestation, process_attestation_phase0, process_attestation_altair. vkt. Qed.
Lemma vk_add pk wc a : forall g, pres vk (add_validator_to_registry E g pk wc a). Proof. intros g. unfold add_validator_to_registry. vkt. Qed.
Lemma vk_excess i : pres vk (queue_excess_active_balance E i). Proof. unfold queue_excess_active_balance. vkt. Qed.
Hint Resolve vk_add vk_excess : vkdb.
Lemma vk_switch i : pres vk (switch_to_compounding_validator E i). Proof. unfold switch_to_compounding_validator. vkt. Qed.
Hint Resolve vk_switch : vkdb.
Lemma vk_apply pk wc a sg : pres vk (apply_deposit E f pk wc a sg).
Proof. unfold apply_deposit, apply_deposit_phase0, apply_deposit_electra. vkt. Qed.
Lemma vk_apply_el pk wc a sg : pres vk (apply_deposit_electra E pk wc a sg).
Proof. unfold apply_deposit_electra. vkt. Qed.
Hint Resolve vk_apply vk_apply_el : vkdb.
Lemma vk_deposit d : pres vk (process_deposit E f d). Proof. unfold process_deposit. vkt. Qed.
Lemma vk_receipt d : pres vk (process_deposit_receipt E d). Proof. unfold process_deposit_receipt. vkt. Qed.
Lemma vk_vexit op : pres vk (process_voluntary_exit E f op). Proof. unfold process_voluntary_exit. vkt. Qed.
Lemma vk_sync sa : pres vk (process_sync_aggregate E sa). Proof. unfold process_sync_aggregate, sync_step. vkt. Qed.
Lemma vk_wd p : pres vk (process_withdrawals E f p). Proof. unfold process_withdrawals. vkt. Qed.
Lemma vk_bls op : pres vk (process_bls_to_execution_change E op). Proof. unfold process_bls_to_execution_change. vkt. Qed.
Lemma vk_wr op : pres vk (process_execution_layer_withdrawal_request E op). Proof. unfold process_execution_layer_withdrawal_request. vkt. Qed.
Lemma vk_cons op : pres vk (process_consolidation E op). Proof. unfold process_consolidation. vkt. Qed.
Hint Resolve vk_pslash vk_aslash vk_att vk_deposit vk_receipt vk_vexit vk_sync vk_wd vk_bls vk_wr vk_cons : vkdb.
Lemma vk_ops b : pres vk (process_operations E f b). Proof. unfold process_operations. vkt. Qed.
End Hk.

Global Hint Resolve vk_inc vk_dec vk_mod vk_exit vk_switch vk_excess : vkdb.
Section Epoch.
Variables (E : Env) (f : Fork).
Lemma vk_justify : pres vk (process_justification_and_finalization E f).
Proof. unfold process_justification_and_finalization, weigh_justification_and_finalization, justify, finalize_if. vkt. Qed.
Lemma vk_inact : pres vk (process_inactivity_updates E). Proof. unfold process_inactivity_updates, inactivity_update_step. vkt. Qed.
Lemma vk_rewards : pres vk (process_rewards_and_penalties E f). Proof. unfold process_rewards_and_penalties, apply_deltas. vkt. Qed.
Lemma vk_registry : pres vk (process_registry_updates E f). Proof. unfold process_registry_updates, registry_step. vkt. Qed.
Lemma vk_slashings : pres vk (process_slashings E f). Proof. unfold process_slashings, slashings_step. vkt. Qed.
Lemma vk_deploop l : forall a p c, pres vk (pending_deposits_loop E l a p c).
Proof. induction l as [|d l IH]; intros a p c; cbn [pending_deposits_loop]; vkt. Qed.
Lemma vk_consloop l : forall n, pres vk (pending_consolidations_loop E l n).
Proof. induction l as [|d l IH]; intros n; cbn [pending_consolidations_loop]; vkt. Qed.
Hint Resolve vk_deploop vk_consloop : vkdb.
Lemma vk_deps : pres vk (process_pending_balance_deposits E). Proof. unfold process_pending_balance_deposits. vkt. Qed.
Lemma vk_conss : pres vk (process_pending_consolidations E). Proof. unfold process_pending_consolidations. vkt. Qed.
Lemma vk_eff : pres vk (process_effective_balance_updates E f). Proof. unfold process_effective_balance_updates, effective_balance_step. vkt. Qed.
Lemma vk_slr : pres vk (process_slashings_reset E). Proof. unfold process_slashings_reset. vkt. Qed.
Lemma vk_hist : pres vk (process_historical_update E f). Proof. unfold process_historical_update. vkt. Qed.
Lemma vk_part : pres vk (match f with Phase0 => process_participation_record_updates | _ => process_participation_flag_updates ;; process_sync_committee_updates E end).
Proof. unfold process_participation_record_updates, process_participation_flag_updates, process_sync_committee_updates. vkt. Qed.


Lemma vk_randaor : pres vk (process_randao_mixes_reset E). Proof. unfold process_randao_mixes_reset. vkt. Qed.
End Epoch.

(** ** A block *)
Section Block.
Variables (E : Env) (f : Fork) (b : BeaconBlock).
Hypothesis Hk : chk E = true.
Notation body := (bk_body b).
Notation d := (bb_eth1_data (bk_body b)).
Lemma vk_rand : pres vk (process_randao E body). Proof. unfold process_randao. vkt. Qed.
Lemma vk_payl g : pres vk (process_execution_payload E g body). Proof. unfold process_execution_payload. vkt. Qed.
Hint Resolve vk_rand vk_payl vk_wd : vkdb.
Lemma vk_part0 : pres vk (payload_part E f b). Proof. unfold payload_part. vkt. Qed.
Lemma vk_first : pres vk (payload_part E f b ;; process_randao E body).
Proof. apply (pres_bind vk vk_trans); [exact vk_part0|intros _; apply vk_rand]. Qed.
Lemma vk_last : pres vk (process_operations E f body ;; swhen (fork_le Altair f) (process_sync_aggregate E (bb_sync_aggregate body))).
Proof. apply (pres_bind vk vk_trans); [apply vk_ops|intros _; apply (pres_when vk vk_refl), vk_sync]. Qed.

Definition voted (s t : BeaconState) : Prop :=
  eth1_data_votes t = eth1_data_votes s ++ [d] /\ (eth1_data t = eth1_data s \/ (eth1_data t = d /\ has_majority E d (eth1_data_votes t)))
  /\ latest_block_header t = latest_block_header s /\ slot t = slot s.
Lemma eth1_does s : let (r, t) := process_eth1_data E body s in
  voted s t /\ (r = Ok tt -> (has_majority E d (eth1_data_votes t) -> eth1_data t = d) /\ (~ has_majority E d (eth1_data_votes t) -> eth1_data t = eth1_data s)).
Proof.
  destruct (process_eth1_data E body s) as [r t] eqn:H. unfold process_eth1_data in H. unfold sbind at 1, md at 1 in H. cbv beta in H. set (s1 := set_eth1_data_votes (eth1_data_votes s ++ [d]) s) in H.
  assert (V : voted s s1) by (unfold voted, s1; gs; auto). unfold sbind, rd in H. cbv beta in H.
  match type of H with context [match ?m with Ok _ => _ | Err _ => _ | Panic => _ | Diverge => _ end] => destruct m as [a| | |] eqn:Hm end; [|injection H as <- <-; split; [exact V|discriminate]..].
  apply rbind_ok_inv in Hm as (v2 & H1 & Hm). apply rbind_ok_inv in Hm as (n & H2 & Hm). apply Ok_inj in Hm. subst a. apply (mul_exact E Hk) in H1, H2. rewrite count_votes_ok in H1. fold (voting_period E) in H2. subst n v2.
  unfold has_majority. destruct (N.ltb_spec (voting_period E) (votes_for d (eth1_data_votes s1) * 2)) as [L|L]; unfold swhen, md, sret in H; injection H as <- <-.
  - split; [|intros _; unfold s1; gs; split; [reflexivity|]; intros X; destruct X; revert L; unfold s1; gs; lia].
    unfold voted in *. destruct V as (V1 & _ & V3 & V4). unfold has_majority. gs. split; [exact V1|]. split; [right; split; [reflexivity|]; lia|]. auto.
  - split; [exact V|]. intros _. split; [intros X; lia|]. reflexivity.
Qed.
(** a block either leaves the votes and the recorded data alone or, once per slot, adds its own vote *)
Lemma vote_block s : let (r, t) := process_block E f b s in
  slot t = slot s
  /\ ((eth1_data_votes t = eth1_data_votes s /\ eth1_data t = eth1_data s
       /\ (bh_slot (latest_block_header t) = bh_slot (latest_block_header s) \/ bh_slot (latest_block_header t) = slot s) /\ r <> Ok tt)
      \/ (bh_slot (latest_block_header s) < slot s /\ bh_slot (latest_block_header t) = slot s /\ eth1_data_votes t = eth1_data_votes s ++ [d]
          /\ (eth1_data t = eth1_data s \/ (eth1_data t = d /\ has_majority E d (eth1_data_votes t)))
          /\ (r = Ok tt -> (has_majority E d (eth1_data_votes t) -> eth1_data t = d) /\ (~ has_majority E d (eth1_data_votes t) -> eth1_data t = eth1_data s)))).
Proof.
  destruct (process_block E f b s) as [r t] eqn:H. unfold process_block in H. fold (payload_part E f b) in H.
  pose proof (header_does E f b s) as Hd. unfold sbind at 1 in H. destruct (process_block_header E f b s) as [r1 s1].
  destruct Hd as [[-> Hr]|(H1 & H2 & hdr & -> & H3 & H4)].
  { assert (t = s /\ r <> Ok tt) as [-> Hn] by (destruct r1 as [x| | |]; [destruct (Hr x eq_refl)|injection H as <- <-; split; [reflexivity|discriminate]..]). split; [reflexivity|left; auto]. }
  set (s1 := set_latest_block_header hdr s) in H.
  assert (K1 : eth1_data_votes s1 = eth1_data_votes s /\ eth1_data s1 = eth1_data s /\ bh_slot (latest_block_header s1) = slot s /\ slot s1 = slot s) by (unfold s1; gs; auto). clearbody s1. destruct K1 as (K1 & K2 & K3 & K4).
  assert (F : forall u, vk s1 u -> slot u = slot s /\ ((eth1_data_votes u = eth1_data_votes s /\ eth1_data u = eth1_data s
     /\ (bh_slot (latest_block_header u) = bh_slot (latest_block_header s) \/ bh_slot (latest_block_header u) = slot s)))).
  { intros u [U1 U2 U3 U4]. rewrite U4, K4, U1, K1, U2, K2, U3, K3. auto. }
  destruct r1 as [[]| | |]; try (injection H as <- <-; destruct (F s1 (vk_refl s1)) as (F1 & F2 & F3 & F4); split; [exact F1|]; left; split; [exact F2|]; split; [exact F3|]; split; [exact F4|]; discriminate).
  pose proof (vk_part0 s1) as P. unfold sbind at 1 in H. destruct (payload_part E f b s1) as [r2 s2]. cbn [snd] in P.
  destruct r2 as [[]| | |]; try (injection H as <- <-; destruct (F _ P) as (F1 & F2 & F3 & F4); split; [exact F1|]; left; split; [exact F2|]; split; [exact F3|]; split; [exact F4|]; discriminate).
  pose proof (vk_rand s2) as Q. unfold sbind at 1 in H. destruct (process_randao E body s2) as [r3 s3]. cbn [snd] in Q. pose proof (vk_trans _ _ _ P Q) as K. clear P Q.
  destruct r3 as [[]| | |]; try (injection H as <- <-; destruct (F _ K) as (F1 & F2 & F3 & F4); split; [exact F1|]; left; split; [exact F2|]; split; [exact F3|]; split; [exact F4|]; discriminate).
  clear F. destruct K as [L1 L2 L3 L4]. pose proof (eth1_does s3) as V. unfold sbind at 1 in H. destruct (process_eth1_data E body s3) as [r4 s4]. destruct V as [(V1 & V2 & V3 & V4) V5].
  assert (G : vk s4 t /\ (r = Ok tt -> r4 = Ok tt)).
  { destruct r4 as [[]| | |]; try (injection H as <- <-; split; [apply vk_refl|discriminate]). split; [|reflexivity]. pose proof (vk_last s4) as T. rewrite H in T. exact T. }
  destruct G as [[T1 T2 T3 T4] Tr]. split; [congruence|]. right. split; [exact H1|]. split; [rewrite T3, V3, L3; exact K3|]. rewrite T1, T2, V1, L1, K1, <- K2, <- L2 in *. split; [reflexivity|]. split; [exact V2|].
  intros Ho. apply V5, Tr, Ho.
Qed.
End Block.

(** ** Slots *)
Lemma reset_does (E : Env) s t : ctx_sane E -> chk E = true -> process_eth1_data_reset E s = (Ok tt, t) ->
  eth1_data t = eth1_data s /\ latest_block_header t = latest_block_header s /\ slot t = slot s
  /\ eth1_data_votes t = (if (epoch_of E s + 1) mod EPOCHS_PER_ETH1_VOTING_PERIOD E =? 0 then [] else eth1_data_votes s) /\ EPOCHS_PER_ETH1_VOTING_PERIOD E <> 0.
Proof.
  intros Hc Hk H. unfold process_eth1_data_reset in H. apply sbind_ok_inv in H as (m & z & H1 & H). apply inv_rd in H1 as [H1 ->]. apply rbind_ok_inv in H1 as (ne & Hn & H1).
  unfold next_epoch in Hn. rewrite (current_epoch_ok E Hc) in Hn. cbn [rbind] in Hn. apply (add_exact E _ _ _ Hk) in Hn. subst ne.
  unfold umod in H1. destruct (N.eqb_spec (EPOCHS_PER_ETH1_VOTING_PERIOD E) 0); [discriminate|]. apply Ok_inj in H1. subst m.
  destruct (_ =? 0); unfold swhen, md, sret in H; injection H as <-; gs; auto.
Qed.
Lemma vote_epoch (E : Env) f s t : ctx_sane E -> chk E = true -> process_epoch E f s = (Ok tt, t) ->
  eth1_data t = eth1_data s /\ latest_block_header t = latest_block_header s /\ slot t = slot s
  /\ eth1_data_votes t = (if (epoch_of E s + 1) mod EPOCHS_PER_ETH1_VOTING_PERIOD E =? 0 then [] else eth1_data_votes s) /\ EPOCHS_PER_ETH1_VOTING_PERIOD E <> 0.
Proof.
  intros Hc Hk H. unfold process_epoch in H.
  assert (G : forall a b (m : St BeaconState unit), pres vk m -> m a = (Ok tt, b) -> vk a b) by (intros a b m P Q; pose proof (P a) as R; rewrite Q in R; exact R).
  apply sbind_ok_inv in H as ([] & s1 & H1 & H). apply G in H1; [|apply vk_justify]. apply sbind_ok_inv in H as ([] & s2 & H2 & H). apply G in H2; [|apply pres_when; [exact vk_refl|apply vk_inact]].
  apply sbind_ok_inv in H as ([] & s3 & H3 & H). apply G in H3; [|apply vk_rewards]. apply sbind_ok_inv in H as ([] & s4 & H4 & H). apply G in H4; [|apply vk_registry].
  apply sbind_ok_inv in H as ([] & s5 & H5 & H). apply G in H5; [|apply vk_slashings]. apply sbind_ok_inv in H as ([] & s6 & H6 & H). 
  apply sbind_ok_inv in H as ([] & s7 & H7 & H). apply G in H7; [|apply pres_when; [exact vk_refl|apply (pres_bind vk vk_trans); [apply vk_deps|intros _; apply vk_conss]]].
  apply sbind_ok_inv in H as ([] & s8 & H8 & H). apply G in H8; [|apply vk_eff]. apply sbind_ok_inv in H as ([] & s9 & H9 & H). apply G in H9; [|apply vk_slr].
  apply sbind_ok_inv in H as ([] & u & H10 & H). apply G in H10; [|apply vk_randaor]. apply sbind_ok_inv in H as ([] & s11 & H11 & H). apply G in H11; [|apply vk_hist]. apply G in H; [|apply vk_part].
  assert (K : vk s s5) by exact (vk_trans _ _ _ H1 (vk_trans _ _ _ H2 (vk_trans _ _ _ H3 (vk_trans _ _ _ H4 H5)))).
  assert (L : vk s6 t) by exact (vk_trans _ _ _ H7 (vk_trans _ _ _ H8 (vk_trans _ _ _ H9 (vk_trans _ _ _ H10 (vk_trans _ _ _ H11 H))))).
  destruct K as [K1 K2 K3 K4], L as [L1 L2 L3 L4]. apply (reset_does E _ _ Hc Hk) in H6 as (R1 & R2 & R3 & R4 & R5).
  assert (Ee : epoch_of E s5 = epoch_of E s) by (unfold epoch_of; f_equal; exact K4). rewrite Ee, K1 in R4. split; [congruence|]. split; [congruence|]. split; [congruence|]. split; [congruence|exact R5].
Qed.
(** one slot: the votes are kept until a new period begins *)
Lemma period_next (n k q : N) : n <> 0 -> k <> 0 -> (q + 1) mod n = 0 -> ((q / n + 1) mod k =? 0) = negb ((q + 1) / (k * n) =? q / (k * n)).
Proof.
  intros Hn Hk Hm. assert (Hkn : k * n <> 0) by (apply N.neq_mul_0; auto).
  pose proof (N.div_mod (q + 1) n Hn) as D. rewrite Hm, N.add_0_r in D. set (a := (q + 1) / n) in *. assert (Ha : a <> 0) by (intros ->; lia).
  assert (Hq : q / n = a - 1). { symmetry. apply (N.div_unique _ _ _ (n - 1)); [lia|]. assert (n * a = n * (a - 1) + n) by (rewrite <- N.mul_succ_r; f_equal; lia). lia. }
  assert (E1 : (q + 1) / (k * n) = a / k) by (rewrite (N.mul_comm k n), <- N.div_div by assumption; reflexivity).
  assert (E2 : q / (k * n) = (a - 1) / k) by (rewrite (N.mul_comm k n), <- N.div_div by assumption; rewrite Hq; reflexivity).
  rewrite Hq, E1, E2. replace (a - 1 + 1) with a by lia.
  pose proof (N.div_mod a k Hk) as D1. pose proof (N.mod_lt a k Hk) as D2. destruct (N.eqb_spec (a mod k) 0) as [Z|Z].
  - symmetry. apply negb_true_iff, N.eqb_neq. rewrite Z, N.add_0_r in D1. set (c := a / k) in *. assert (Hc : c <> 0) by (intros ->; lia).
    assert ((a - 1) / k = c - 1); [|lia]. symmetry. apply (N.div_unique _ _ _ (k - 1)); [lia|]. assert (k * c = k * (c - 1) + k) by (rewrite <- N.mul_succ_r; f_equal; lia). lia.
  - symmetry. apply negb_false_iff, N.eqb_eq. set (c := a / k) in *. set (m := a mod k) in *. clearbody c m. apply (N.div_unique _ _ _ (m - 1)); lia.
Qed.
Lemma period_inside (n k q : N) : n <> 0 -> k <> 0 -> (q + 1) mod n <> 0 -> (q + 1) / (k * n) = q / (k * n).
Proof.
  intros Hn Hk Hm. rewrite (N.mul_comm k n), <- !N.div_div by assumption. f_equal. pose proof (N.div_mod (q + 1) n Hn) as D. pose proof (N.mod_lt (q + 1) n Hn) as L.
  set (a := (q + 1) / n) in *. set (m := (q + 1) mod n) in *. clearbody a m. apply (N.div_unique _ _ _ (m - 1)); lia.
Qed.
Lemma vote_slot (E : Env) f s t : ctx_sane E -> chk E = true -> EPOCHS_PER_ETH1_VOTING_PERIOD E <> 0 -> slot s + 1 < 2 ^ 64 -> process_slots E f (slot s + 1) s = (Ok tt, t) ->
  slot t = slot s + 1 /\ eth1_data t = eth1_data s /\ bh_slot (latest_block_header t) = bh_slot (latest_block_header s)
  /\ eth1_data_votes t = (if period_of E t =? period_of E s then eth1_data_votes s else []).
Proof.
  intros Hc Hk Hp Hb H. assert (Hb' : slot s + 1 < U64) by (rewrite U64_val; pows; lia).
  assert (Hn : SLOTS_PER_EPOCH E <> 0) by (ctxs Hc; lia).
  assert (Ha : advance_slot E f s = (Ok tt, t)).
  { rewrite process_slots_loop in H by lia. replace (N.to_nat (slot s + 1 - slot s)) with 1%nat in H by lia.
    rewrite loop_step in H by lia. apply sbind_ok_inv in H as ([] & m & H1 & H). rewrite loop_done in H; [injection H as <-; exact H1|].
    destruct (advance_inv E Hc f s m Hb' H1) as (s1 & s2 & _ & _ & _ & S2 & ->). gs. lia. }
  destruct (advance_inv E Hc f s t Hb' Ha) as (s1 & s2 & A1 & A2 & A3 & A4 & ->). unfold period_of. gs. rewrite A4.
  assert (Q : eth1_data s1 = eth1_data s /\ bh_slot (latest_block_header s1) = bh_slot (latest_block_header s) /\ eth1_data_votes s1 = eth1_data_votes s).
  { unfold process_slot in A1. apply sbind_ok_inv in A1 as (r & z & Hr & A1). apply inv_rd in Hr as [_ ->]. apply sbind_ok_inv in A1 as ([] & a & B1 & A1). unfold md in B1. injection B1 as <-.
    apply sbind_ok_inv in A1 as ([] & a & B1 & A1). unfold md in B1. injection B1 as <-. apply sbind_ok_inv in A1 as (q & z & Hq & A1). apply inv_rd in Hq as [_ ->]. unfold md in A1. injection A1 as <-. gs.
    destruct (bytes_eqb _ _); gs; auto. }
  destruct Q as (Q1 & Q2 & Q3). split; [reflexivity|]. unfold voting_period. destruct (N.eqb_spec ((slot s + 1) mod SLOTS_PER_EPOCH E) 0) as [Hm|Hm].
  - destruct (vote_epoch E f s1 s2 Hc Hk A3) as (P1 & P2 & P3 & P4 & P5). split; [congruence|]. split; [congruence|].
    rewrite P4, Q3. assert (Ee : epoch_of E s1 = slot s / SLOTS_PER_EPOCH E) by (unfold epoch_of; f_equal; exact A2). rewrite Ee, (period_next _ _ _ Hn Hp Hm). match goal with |- (if negb ?x then _ else _) = _ => destruct x; reflexivity end.
  - subst s2. rewrite (period_inside _ _ _ Hn Hp Hm), N.eqb_refl. auto.
Qed.

(** ** Upgrades *)
Lemma vk_entire i : pres vk (queue_entire_balance_and_reset_validator i).
Proof. unfold queue_entire_balance_and_reset_validator. vkt. Qed.
Lemma vote_upgrade (E : Env) f g s t : chain_call E (f, s) (g, t) -> f <> g -> vk s t.
Proof.
  intros H Hne. inversion H; subst; try congruence.
  - match goal with H : upgrade_to_altair E s = Ok t |- _ => rename H into Hu end. unfold upgrade_to_altair in Hu. rinv Hu. subst t.
    match goal with H : translate_participation _ _ _ = Ok _ |- _ => unfold translate_participation in H; rinv H; subst end. unfold altair_base. constructor; gs; reflexivity.
  - match goal with H : upgrade_to_bellatrix E s = Ok t |- _ => unfold upgrade_to_bellatrix in H; rinv H; subst end. constructor; reflexivity.
  - match goal with H : upgrade_to_capella E s = Ok t |- _ => unfold upgrade_to_capella in H; rinv H; subst end. constructor; reflexivity.
  - match goal with H : upgrade_to_deneb E s = Ok t |- _ => unfold upgrade_to_deneb in H; rinv H; subst end. constructor; reflexivity.
  - match goal with H : upgrade_to_electra E s = Ok t |- _ => rename H into Hu end. unfold upgrade_to_electra in Hu. rinv Hu.
    match type of Hu with context [electra_finish E ?b] => assert (K : vk b (snd (electra_finish E b))) end.
    { generalize (electra_base E x x0 x1 s). change (pres vk (electra_finish E)). unfold electra_finish. vkt; apply vk_entire. }
    destruct (electra_finish E _) as [r post]. cbn [snd] in K. rinv Hu. subst post. refine (vk_trans _ _ _ _ K). unfold electra_base. constructor; gs; reflexivity.
Qed.
