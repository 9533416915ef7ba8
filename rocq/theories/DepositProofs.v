(** * Proofs about the deposits of whole blocks (proof file; no model definitions) *)
From Verif Require Import Base BaseLemmas Types Ctx Env Helpers HelpersAltair HelpersElectra Block StLemmas
  SpecCommon SpecFlow HelperProofs HelperProofs2 BlockProofs FlowProofs CrashProofs.

Lemma keeps_sfold {X B T} (F : BeaconState -> T) (body : B -> X -> St BeaconState B) : (forall b x, keeps F (body b x)) -> forall l b, keeps F (sfold body l b).
Proof. intros H. induction l as [|x l IH]; intros b; cbn [sfold]; [apply keeps_ret|]. apply keeps_bind; [apply H|]. intros b'. apply IH. Qed.
Ltac kp := repeat first [apply keeps_rd | apply keeps_lift | apply keeps_ret | apply keeps_md; reflexivity | apply keeps_when | apply keeps_for; intros ? | apply keeps_sfold; intros ? ?
  | apply keeps_bind; [|intros ?] | progress cbv zeta | match goal with |- keeps _ (match ?x with _ => _ end) => destruct x end].

Section D.
Variable E : Env.
Variable f : Fork.
Definition eth1_fields (s : BeaconState) := (eth1_data s, eth1_deposit_index s).
Notation kF := (keeps eth1_fields).
Lemma kd_mod i h : kF (mod_validator i h). Proof. unfold mod_validator. kp. Qed.
Lemma kd_inc i a : kF (increase_balance E i a). Proof. unfold increase_balance. kp. Qed.
Lemma kd_dec i a : kF (decrease_balance E i a). Proof. unfold decrease_balance. kp. Qed.
Lemma kd_exit i : kF (initiate_exit E f i).
Proof. unfold initiate_exit, initiate_validator_exit, initiate_validator_exit_electra, compute_exit_epoch_and_update_churn, mod_validator. kp. Qed.
Lemma kd_slash i w : kF (slash_validator E f i w).
Proof. unfold slash_validator. kp; try apply kd_mod; try apply kd_exit; try apply kd_inc; try apply kd_dec. Qed.
Ltac kb := kp; try apply kd_slash; try apply kd_mod; try apply kd_exit; try apply kd_inc; try apply kd_dec;
  try (apply keeps_md; intros ?; match goal with |- context [if ?c then _ else _] => destruct c end; reflexivity).
Lemma kd_pslash op : kF (process_proposer_slashing E f op). Proof. unfold process_proposer_slashing. kb. Qed.
Lemma kd_aslash op : kF (process_attester_slashing E f op). Proof. unfold process_attester_slashing. kb. Qed.
Lemma kd_att op : kF (process_attestation E f op).
Proof. unfold process_attestation, process_attestation_phase0, process_attestation_altair, attestation_flag_step, set_participation. kb. Qed.
Lemma kd_apply pk wc a sg : kF (apply_deposit E f pk wc a sg).
Proof. unfold apply_deposit, apply_deposit_electra, add_validator_to_registry, switch_to_compounding_validator, queue_excess_active_balance. kb. Qed.
Lemma kd_ve op : kF (process_voluntary_exit E f op). Proof. unfold process_voluntary_exit. kb. Qed.
Lemma kd_bls op : kF (process_bls_to_execution_change E op). Proof. unfold process_bls_to_execution_change. kb. Qed.
Lemma kd_exit_e i : kF (initiate_validator_exit_electra E i).
Proof. unfold initiate_validator_exit_electra, compute_exit_epoch_and_update_churn, mod_validator. kp. Qed.
Lemma kd_req op : kF (process_execution_layer_withdrawal_request E op).
Proof. unfold process_execution_layer_withdrawal_request, compute_exit_epoch_and_update_churn. kb; apply kd_exit_e. Qed.
Lemma kd_receipt op : kF (process_deposit_receipt E op).
Proof. unfold process_deposit_receipt, apply_deposit_electra, add_validator_to_registry, switch_to_compounding_validator, queue_excess_active_balance. kb. Qed.
Lemma kd_cons op : kF (process_consolidation E op).
Proof. unfold process_consolidation, compute_consolidation_epoch_and_update_churn. kb. Qed.
Lemma kd_header b : kF (process_block_header E f b). Proof. unfold process_block_header. kb. Qed.
Lemma kd_withdrawals p : kF (process_withdrawals E f p). Proof. unfold process_withdrawals. kb. Qed.
Lemma kd_payload b : kF (process_execution_payload E f b). Proof. unfold process_execution_payload. kb. Qed.
Lemma kd_randao b : kF (process_randao E b). Proof. unfold process_randao. kb. Qed.
Lemma kd_sync a : kF (process_sync_aggregate E a). Proof. unfold process_sync_aggregate, sync_step. kb. Qed.
Lemma kd_eth1 b : keeps eth1_deposit_index (process_eth1_data E b). Proof. unfold process_eth1_data. kp. Qed.

(** a successful step that keeps the fields *)
Lemma kF_ok {A} (m : St BeaconState A) s a s' : kF m -> m s = (Ok a, s') -> eth1_data s' = eth1_data s /\ eth1_deposit_index s' = eth1_deposit_index s.
Proof. intros H Hm. specialize (H s). rewrite Hm in H. cbn in H. unfold eth1_fields in H. injection H as H1 H2. auto. Qed.
Lemma deposits_run : forall l s s', eth1_deposit_index s + lenN l < 2 ^ 64 -> sfor l (process_deposit E f) s = (Ok tt, s') ->
  eth1_data s' = eth1_data s /\ eth1_deposit_index s' = eth1_deposit_index s + lenN l
  /\ forall k d, nthN l k = Some d -> exists leaf, htr E (ODepositData (dep_data d)) = Some leaf
       /\ merkle_branch_ok E leaf (dep_proof d) 33 (eth1_deposit_index s + k) (e1_deposit_root (eth1_data s)) = true.
Proof.
  induction l as [|d l IH]; intros s s' Hi H; cbn [sfor] in H.
  - injection H as <-. change (lenN (@nil Deposit)) with 0. rewrite N.add_0_r. split; [reflexivity|]. split; [reflexivity|]. intros k d Hd. discriminate.
  - rewrite lenN_cons in Hi |- *. apply sbind_ok_inv in H as ([] & s1 & H1 & H).
    unfold process_deposit in H1. apply sbind_ok_inv in H1 as ([] & s2 & H0 & H1). apply inv_rd in H0 as [H0 ->].
    apply sbind_ok_inv in H1 as (i & s3 & H2 & H1). apply inv_rd in H2 as [H2 ->]. unfold add in H2. rewrite uadd_ok in H2 by (change U64 with (2 ^ 64); lia). injection H2 as <-.
    apply sbind_ok_inv in H1 as ([] & s3 & H2 & H1). injection H2 as <-.
    destruct (kF_ok _ _ _ _ (kd_apply _ _ _ _) H1) as [K1 K2]. gsh K1. gsh K2.
    destruct (IH s1 s' ltac:(lia) H) as (R1 & R2 & R3). split; [congruence|]. split; [lia|].
    intros k d' Hk. rewrite nthN_cons in Hk. destruct (N.eqb_spec k 0) as [->|Hne].
    + injection Hk as <-. rewrite N.add_0_r. unfold htr_r in H0. destruct (htr E (ODepositData (dep_data d))) as [leaf|]; [|discriminate]. exists leaf. split; [reflexivity|].
      cbn [ok_or rbind] in H0. apply require_ok in H0. exact H0.
    + specialize (R3 (k - 1) d' Hk). rewrite K1, K2 in R3. replace (eth1_deposit_index s + 1 + (k - 1)) with (eth1_deposit_index s + k) in R3 by lia. exact R3.
Qed.
Lemma operations_run b s s' : eth1_deposit_index s + lenN (bb_deposits b) < 2 ^ 64 -> process_operations E f b s = (Ok tt, s') ->
  deposit_count_check E f b s = Ok tt /\ eth1_data s' = eth1_data s /\ eth1_deposit_index s' = eth1_deposit_index s + lenN (bb_deposits b)
  /\ forall k d, nthN (bb_deposits b) k = Some d -> exists leaf, htr E (ODepositData (dep_data d)) = Some leaf
       /\ merkle_branch_ok E leaf (dep_proof d) 33 (eth1_deposit_index s + k) (e1_deposit_root (eth1_data s)) = true.
Proof.
  intros Hi H. unfold process_operations in H. apply sbind_ok_inv in H as ([] & s0 & H0 & H). apply inv_rd in H0 as [H0 ->]. split; [exact H0|].
  apply sbind_ok_inv in H as ([] & s1 & H1 & H). apply sbind_ok_inv in H as ([] & s2 & H2 & H). apply sbind_ok_inv in H as ([] & s3 & H3 & H).
  apply sbind_ok_inv in H as ([] & s4 & H4 & H). apply sbind_ok_inv in H as ([] & s5 & H5 & H). apply sbind_ok_inv in H as ([] & s6 & H6 & H).
  apply kF_ok in H1 as [A1 B1]; [|apply keeps_for; intros; apply kd_pslash].
  apply kF_ok in H2 as [A2 B2]; [|apply keeps_for; intros; apply kd_aslash].
  apply kF_ok in H3 as [A3 B3]; [|apply keeps_for; intros; apply kd_att].
  apply deposits_run in H4 as (A4 & B4 & C4); [|congruence].
  apply kF_ok in H5 as [A5 B5]; [|apply keeps_for; intros; apply kd_ve].
  apply kF_ok in H6 as [A6 B6]; [|apply keeps_when, keeps_for; intros; apply kd_bls].
  apply kF_ok in H as [A7 B7]; [|apply keeps_when, keeps_bind; [apply keeps_for; intros; apply kd_req|intros _; apply keeps_bind; [apply keeps_for; intros; apply kd_receipt|intros _; apply keeps_for; intros; apply kd_cons]]].
  split; [congruence|]. split; [congruence|]. intros k d Hk. specialize (C4 k d Hk). replace (eth1_data s) with (eth1_data s3) by congruence. replace (eth1_deposit_index s) with (eth1_deposit_index s3) by congruence. exact C4.
Qed.
Lemma block_deposits b s s' : eth1_deposit_index s + lenN (bb_deposits (bk_body b)) < 2 ^ 64 -> process_block E f b s = (Ok tt, s') ->
  (exists t, eth1_data t = eth1_data s' /\ eth1_deposit_index t = eth1_deposit_index s /\ deposit_count_check E f (bk_body b) t = Ok tt
     /\ (f = Electra -> deposit_receipts_start_index t = deposit_receipts_start_index s))
  /\ eth1_deposit_index s' = eth1_deposit_index s + lenN (bb_deposits (bk_body b))
  /\ forall k d, nthN (bb_deposits (bk_body b)) k = Some d -> exists leaf, htr E (ODepositData (dep_data d)) = Some leaf
       /\ merkle_branch_ok E leaf (dep_proof d) 33 (eth1_deposit_index s + k) (e1_deposit_root (eth1_data s')) = true.
Proof.
  intros Hi H. unfold process_block in H. cbv zeta in H. apply sbind_ok_inv in H as ([] & s1 & H1 & H). apply sbind_ok_inv in H as ([] & s2 & H2 & H).
  apply sbind_ok_inv in H as ([] & s3 & H3 & H). apply sbind_ok_inv in H as ([] & s4 & H4 & H). apply sbind_ok_inv in H as ([] & s5 & H5 & H).
  assert (S1 : deposit_receipts_start_index s1 = deposit_receipts_start_index s).
  { assert (K : keeps deposit_receipts_start_index (process_block_header E f b)) by (unfold process_block_header; kp). specialize (K s). rewrite H1 in K. exact K. }
  assert (S2 : deposit_receipts_start_index s2 = deposit_receipts_start_index s1).
  { assert (K : forall i a, keeps deposit_receipts_start_index (decrease_balance E i a)) by (intros; unfold decrease_balance; kp).
    assert (K2 : keeps deposit_receipts_start_index (process_withdrawals E f (bb_execution_payload (bk_body b));; process_execution_payload E f (bk_body b)))
      by (unfold process_withdrawals, process_execution_payload; kp; try apply K).
    assert (K3 : keeps deposit_receipts_start_index (process_execution_payload E f (bk_body b))) by (unfold process_execution_payload; kp).
    revert H2. destruct f; intros H2; try (injection H2 as <-; reflexivity); try (specialize (K2 s1); rewrite H2 in K2; exact K2).
    apply sbind_ok_inv in H2 as (en & sx & H2 & H2'). apply inv_rd in H2 as [_ ->]. unfold swhen in H2'. destruct en; [|injection H2' as <-; reflexivity]. specialize (K3 s1). rewrite H2' in K3. exact K3. }
  assert (S3 : deposit_receipts_start_index s3 = deposit_receipts_start_index s2).
  { assert (K : keeps deposit_receipts_start_index (process_randao E (bk_body b))) by (unfold process_randao; kp). specialize (K s2). rewrite H3 in K. exact K. }
  assert (S4 : deposit_receipts_start_index s4 = deposit_receipts_start_index s3).
  { assert (K : keeps deposit_receipts_start_index (process_eth1_data E (bk_body b))) by (unfold process_eth1_data; kp). specialize (K s3). rewrite H4 in K. exact K. }
  apply kF_ok in H1 as [A1 B1]; [|apply kd_header].
  apply kF_ok in H2 as [A2 B2]; [|destruct f; kp; try apply kd_payload; try apply kd_withdrawals].
  apply kF_ok in H3 as [A3 B3]; [|apply kd_randao].
  pose proof (kd_eth1 (bk_body b) s3) as B4. rewrite H4 in B4. cbn [snd] in B4.
  apply operations_run in H5 as (C5 & A5 & B5 & D5); [|congruence].
  apply kF_ok in H as [A6 B6]; [|apply keeps_when, kd_sync].
  split; [exists s4; repeat split; congruence|]. split; [congruence|]. intros k d Hk. specialize (D5 k d Hk).
  replace (eth1_data s') with (eth1_data s4) by congruence. replace (eth1_deposit_index s) with (eth1_deposit_index s4) by congruence. exact D5.
Qed.
End D.
