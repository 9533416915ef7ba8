(** * The wait for a withdrawal (proof file; no model definitions) *)
From Verif Require Import Base BaseLemmas Types Ctx Env Helpers HelpersAltair HelpersElectra Block Epoch Transition Upgrade StLemmas
  SpecCommon SpecHelpers SpecElectra SpecFlow SpecFinality SpecPayouts SpecWait Frame HelperProofs HelperProofs2 BlockProofs SlotProofs FlowProofs CrashProofs DepositProofs AuthorityProofs
  BlockProofs PayloadProofs PayoutProofs.
From Coq Require Import Relations.

Section N.
Variable E : Env.
Variable f : Fork.
Notation kV := (keeps next_withdrawal_validator_index).
Lemma kv_mod i h : kV (mod_validator i h). Proof. unfold mod_validator. kp. Qed.
Lemma kv_inc i a : kV (increase_balance E i a). Proof. unfold increase_balance. kp. Qed.
Lemma kv_dec i a : kV (decrease_balance E i a). Proof. unfold decrease_balance. kp. Qed.
Lemma kv_exit i : kV (initiate_exit E f i).
Proof. unfold initiate_exit, initiate_validator_exit, initiate_validator_exit_electra, compute_exit_epoch_and_update_churn, mod_validator. kp. Qed.
Lemma kv_slash i w : kV (slash_validator E f i w).
Proof. unfold slash_validator. kp; try apply kv_mod; try apply kv_exit; try apply kv_inc; try apply kv_dec. Qed.
Ltac kb := kp; try apply kv_slash; try apply kv_mod; try apply kv_exit; try apply kv_inc; try apply kv_dec;
  try (apply keeps_md; intros ?; match goal with |- context [if ?c then _ else _] => destruct c end; reflexivity).
Lemma kv_pslash op : kV (process_proposer_slashing E f op). Proof. unfold process_proposer_slashing. kb. Qed.
Lemma kv_aslash op : kV (process_attester_slashing E f op). Proof. unfold process_attester_slashing. kb. Qed.
Lemma kv_att op : kV (process_attestation E f op).
Proof. unfold process_attestation, process_attestation_phase0, process_attestation_altair, attestation_flag_step, set_participation. kb. Qed.
Lemma kv_apply pk wc a sg : kV (apply_deposit E f pk wc a sg).
Proof. unfold apply_deposit, apply_deposit_electra, add_validator_to_registry, switch_to_compounding_validator, queue_excess_active_balance. kb. Qed.
Lemma kv_deposit d : kV (process_deposit E f d). Proof. unfold process_deposit. kp. apply kv_apply. Qed.
Lemma kv_ve op : kV (process_voluntary_exit E f op). Proof. unfold process_voluntary_exit. kb. Qed.
Lemma kv_bls op : kV (process_bls_to_execution_change E op). Proof. unfold process_bls_to_execution_change. kb. Qed.
Lemma kv_exit_e i : kV (initiate_validator_exit_electra E i).
Proof. unfold initiate_validator_exit_electra, compute_exit_epoch_and_update_churn, mod_validator. kp. Qed.
Lemma kv_req op : kV (process_execution_layer_withdrawal_request E op).
Proof. unfold process_execution_layer_withdrawal_request, compute_exit_epoch_and_update_churn. kb; apply kv_exit_e. Qed.
Lemma kv_receipt op : kV (process_deposit_receipt E op).
Proof. unfold process_deposit_receipt, apply_deposit_electra, add_validator_to_registry, switch_to_compounding_validator, queue_excess_active_balance. kb. Qed.
Lemma kv_cons op : kV (process_consolidation E op).
Proof. unfold process_consolidation, compute_consolidation_epoch_and_update_churn. kb. Qed.
Lemma kv_payload g b : kV (process_execution_payload E g b). Proof. unfold process_execution_payload. kb. Qed.
Lemma kv_randao b : kV (process_randao E b). Proof. unfold process_randao. kb. Qed.
Lemma kv_eth1 b : kV (process_eth1_data E b). Proof. unfold process_eth1_data. kp. Qed.
Lemma kv_sync a : kV (process_sync_aggregate E a). Proof. unfold process_sync_aggregate, sync_step. kb. Qed.
Lemma kv_ops b : kV (process_operations E f b).
Proof.
  unfold process_operations.
  repeat first [apply kv_pslash | apply kv_aslash | apply kv_att | apply kv_deposit | apply kv_ve | apply kv_bls | apply kv_req | apply kv_receipt | apply kv_cons
    | apply keeps_rd | apply keeps_when | apply keeps_for; intros ? | apply keeps_bind; [|intros ?]].
Qed.
Lemma kv_ok {A} (m : St BeaconState A) s a s' : kV m -> m s = (Ok a, s') -> next_withdrawal_validator_index s' = next_withdrawal_validator_index s.
Proof. intros H Hm. specialize (H s). rewrite Hm in H. exact H. Qed.

(** ** A block's sweep moves past at least [sweep_stride] validators, or past all *)
Lemma no_skip_far s : 1 <= MAX_WITHDRAWALS_PER_PAYLOAD E ->
  exists m, (m = lenN (validators s) \/ m <= lenN (validators s) /\ sweep_stride E <= m
      /\ next_sweep_start E s (expected_withdrawals E f s) = (next_withdrawal_validator_index s + m) mod lenN (validators s))
    /\ (forall i, (exists k, k < m /\ i = (next_withdrawal_validator_index s + k) mod lenN (validators s)) -> has_due E f s i = true -> In i (swept E f s)).
Proof.
  intros HM. set (p := has_due E f s). set (L := sweep_order s (sweep_length E s)).
  assert (HL : lenN L = sweep_length E s) by (unfold L, sweep_order; rewrite lenN_map, lenN_rangeN; reflexivity).
  assert (Hlen : lenN (expected_withdrawals E f s) = lenN (swept E f s)) by apply numbered_len.
  destruct (N.le_gt_cases (MAX_WITHDRAWALS_PER_PAYLOAD E) (lenN (filter p L))) as [Hfull|Hnot].
  - destruct (firstn_filter_split p L (N.to_nat (MAX_WITHDRAWALS_PER_PAYLOAD E))) as (l1 & x & l2 & E1 & E2 & E3); [lia|unfold lenN in Hfull; lia|].
    assert (Hsw : swept E f s = filter p l1 ++ [x]) by exact E3. exists (lenN l1 + 1).
    assert (Hb : lenN l1 + 1 <= sweep_length E s) by (rewrite <- HL, E1, lenN_app, lenN_cons; lia).
    assert (Hx : nthN L (lenN l1) = Some x) by (rewrite E1, nthN_app_r by lia; rewrite N.sub_diag; reflexivity).
    assert (Hpos : forall k, k < sweep_length E s -> nthN L k = Some ((next_withdrawal_validator_index s + k) mod lenN (validators s))) by (intros k Hk; apply sweep_order_nth; exact Hk).
    assert (Hl2 : lenN (swept E f s) = MAX_WITHDRAWALS_PER_PAYLOAD E) by (unfold swept, firstN; fold p; fold L; unfold lenN in *; rewrite firstn_length; lia).
    split.
    + right. split; [unfold sweep_length in Hb; lia|].
      split.
      { rewrite Hsw, lenN_app in Hl2. change (lenN [x]) with 1 in Hl2.
        assert (Hfl : lenN (filter p l1) <= lenN l1) by (unfold lenN; clear; induction l1 as [|y l1 IH]; cbn [filter length]; [lia|destruct (p y); cbn [length]; lia]).
        unfold sweep_stride. lia. }
      unfold next_sweep_start. rewrite Hlen, Hl2, N.eqb_refl.
      assert (Hrev : exists w t, rev (expected_withdrawals E f s) = w :: t /\ w_validator_index w = x).
      { assert (Hm : map w_validator_index (rev (expected_withdrawals E f s)) = x :: rev (filter p l1)) by (rewrite map_rev; unfold expected_withdrawals; rewrite numbered_index, Hsw, rev_unit; reflexivity).
        destruct (rev (expected_withdrawals E f s)) as [|w t]; [discriminate|]. cbn [map] in Hm. injection Hm as Hm _. eauto. }
      destruct Hrev as (w & t & -> & ->). rewrite Hpos in Hx by lia. injection Hx as <-.
      destruct (N.eq_dec (lenN (validators s)) 0) as [Hz|Hz].
      * unfold sweep_length in Hb. lia.
      * rewrite N.add_mod_idemp_l by exact Hz. f_equal. lia.
    + intros i (k & Hk & ->) H2. rewrite Hsw. rewrite in_app_iff, filter_In. destruct (N.eq_dec k (lenN l1)) as [->|Hne].
      * right. left. rewrite Hpos in Hx by lia. congruence.
      * left. split; [|exact H2]. eapply nthN_In with (i := k). pose proof (Hpos k ltac:(lia)) as Hk'. rewrite E1, nthN_app_l in Hk' by lia. exact Hk'.
  - exists (sweep_length E s).
    assert (Hsw : swept E f s = filter p L) by (unfold swept, firstN; fold p; fold L; apply firstn_all2; unfold lenN in Hnot; lia).
    split.
    + unfold sweep_length. destruct (N.le_gt_cases (lenN (validators s)) (MAX_VALIDATORS_PER_WITHDRAWALS_SWEEP E)) as [H|H]; [left; lia|right].
      split; [lia|]. split; [unfold sweep_stride; lia|].
      unfold next_sweep_start. rewrite Hlen, Hsw. destruct (N.eqb_spec (lenN (filter p L)) (MAX_WITHDRAWALS_PER_PAYLOAD E)); [lia|]. do 2 f_equal. lia.
    + intros i (k & Hk & ->) H2. rewrite Hsw, filter_In. split; [|exact H2]. apply in_map_iff. exists k. split; [reflexivity|]. apply In_rangeN. exact Hk.
Qed.

Lemma expected_header hdr s : expected_withdrawals E f (set_latest_block_header hdr s) = expected_withdrawals E f s.
Proof.
  assert (Sw : swept E f (set_latest_block_header hdr s) = swept E f s).
  { unfold swept. f_equal. }
  unfold expected_withdrawals. rewrite Sw. change (next_withdrawal_index (set_latest_block_header hdr s)) with (next_withdrawal_index s).
  clear Sw. generalize (next_withdrawal_index s). induction (swept E f s) as [|i l IH]; intros wi; cbn [numbered]; [reflexivity|]. rewrite IH. reflexivity.
Qed.

(** ** What an accepted block pays and where it leaves the pointer *)
Lemma block_sweep b s t : ctx_sane E -> withdrawal_limits E -> f = Capella \/ f = Deneb -> sweep_ready s -> process_block E f b s = (Ok tt, t) ->
  payouts f b = expected_withdrawals E f s /\ next_withdrawal_validator_index t = next_sweep_start E s (expected_withdrawals E f s).
Proof.
  intros Hc Hl Hf Hr H. unfold process_block in H. cbv zeta in H. apply sbind_ok_inv in H as ([] & s1 & H1 & H). apply sbind_ok_inv in H as ([] & s2 & H2 & H).
  apply sbind_ok_inv in H as ([] & s3 & H3 & H). apply sbind_ok_inv in H as ([] & s4 & H4 & H). apply sbind_ok_inv in H as ([] & s5 & H5 & H).
  apply kv_ok in H3; [|apply kv_randao]. apply kv_ok in H4; [|apply kv_eth1]. apply kv_ok in H5; [|apply kv_ops]. apply kv_ok in H; [|apply keeps_when, kv_sync].
  pose proof (header_does E f b s) as D. rewrite H1 in D. destruct D as [[_ D]|(_ & _ & hdr & Hs & _)]; [exfalso; exact (D tt eq_refl)|].
  assert (X1 : expected_withdrawals E f s1 = expected_withdrawals E f s) by (rewrite Hs; apply expected_header).
  assert (X2 : next_sweep_start E s1 (expected_withdrawals E f s1) = next_sweep_start E s (expected_withdrawals E f s)) by (rewrite X1, Hs; reflexivity).
  assert (Hr1 : sweep_ready s1) by (rewrite Hs; exact Hr).
  assert (H2' : (process_withdrawals E f (bb_execution_payload (bk_body b));; process_execution_payload E f (bk_body b)) s1 = (Ok tt, s2)) by (destruct Hf as [Hf|Hf]; rewrite Hf in *; exact H2).
  apply sbind_ok_inv in H2' as ([] & sx & Hx & Hy). apply kv_ok in Hy; [|apply kv_payload].
  assert (Hp : plain f s1) by (intros Hfe; destruct Hf as [Hf|Hf]; rewrite Hf in Hfe; discriminate).
  destruct (withdrawals_run E Hc f (bb_execution_payload (bk_body b)) s1 Hp) as [W1 W2]; [intros Hfe; destruct Hf as [Hf|Hf]; rewrite Hf in Hfe; discriminate|exact Hr1|exact Hl|].
  assert (Pq : payouts f b = ep_withdrawals (bb_execution_payload (bk_body b))) by (unfold payouts; destruct Hf as [Hf|Hf]; rewrite Hf; reflexivity).
  destruct (list_eq_dec Withdrawal_eq_dec (ep_withdrawals (bb_execution_payload (bk_body b))) (expected_withdrawals E f s1)) as [He|He].
  - specialize (W1 He). rewrite W1 in Hx. apply (f_equal snd) in Hx. unfold snd in Hx.
    split; [congruence|]. rewrite H, H5, H4, H3, Hy, <- Hx. gs. exact X2.
  - exfalso. destruct (W2 He) as [W _]. rewrite Hx in W. discriminate.
Qed.
End N.

(** ** The distance from the pointer to a validator, in a registry of at most [M] *)
Definition ahead (M p i : N) : N := if p <=? i then i - p else M - p + i.
Lemma ahead_step M n p i m : i < n -> p < n -> n <= M -> m <= n -> (forall k, k < m -> i <> (p + k) mod n) -> m < n /\ ahead M ((p + m) mod n) i + m <= ahead M p i.
Proof.
  intros Hi Hp Hn Hm Hk. unfold ahead. assert (Hz : n <> 0) by lia. destruct (N.leb_spec p i) as [Hpi|Hpi].
  - assert (Hm2 : m <= i - p).
    { destruct (N.le_gt_cases m (i - p)) as [G|G]; [exact G|exfalso]. apply (Hk (i - p) G). replace (p + (i - p)) with i by lia. symmetry. apply N.mod_small. exact Hi. }
    split; [lia|]. rewrite N.mod_small by lia. destruct (N.leb_spec (p + m) i); lia.
  - assert (Hm2 : m <= n - p + i).
    { destruct (N.le_gt_cases m (n - p + i)) as [G|G]; [exact G|exfalso]. apply (Hk (n - p + i) G). replace (p + (n - p + i)) with (i + 1 * n) by lia. rewrite N.mod_add by exact Hz. symmetry. apply N.mod_small. exact Hi. }
    split; [lia|]. destruct (N.lt_ge_cases (p + m) n) as [G|G].
    + rewrite N.mod_small by exact G. destruct (N.leb_spec (p + m) i); lia.
    + replace (p + m) with (p + m - n + 1 * n) by lia. rewrite N.mod_add by exact Hz. rewrite N.mod_small by lia. destruct (N.leb_spec (p + m - n) i); lia.
Qed.
Lemma evo_pointer E f l s t : l <> LBlock -> evo E f l s t -> next_withdrawal_validator_index t = next_withdrawal_validator_index s.
Proof.
  intros Hl H. induction H as [s t H|s|s t u _ IH1 _ IH2]; [|reflexivity|congruence].
  inversion H; subst; try contradiction; try reflexivity.
Qed.
Lemma slot_pointer (E : Env) f s t : ctx_sane E -> slot s + 1 < 2 ^ 64 -> process_slots E f (slot s + 1) s = (Ok tt, t) -> next_withdrawal_validator_index t = next_withdrawal_validator_index s.
Proof.
  intros Hc Hb H. assert (Hb' : slot s + 1 < U64) by (rewrite U64_val; pows; lia).
  assert (Ha : advance_slot E f s = (Ok tt, t)).
  { rewrite process_slots_loop in H by lia. replace (N.to_nat (slot s + 1 - slot s)) with 1%nat in H by lia.
    rewrite loop_step in H by lia. apply sbind_ok_inv in H as ([] & m & H1 & H). rewrite loop_done in H; [injection H as <-; exact H1|].
    destruct (advance_inv E Hc f s m Hb' H1) as (s1 & s2 & _ & _ & _ & S2 & ->). gs. lia. }
  destruct (advance_inv E Hc f s t Hb' Ha) as (s1 & s2 & A1 & A2 & A3 & A4 & ->). gs.
  pose proof (evp_slot E f s) as P. rewrite A1 in P. apply evo_pointer in P; [|discriminate]. cbn [snd] in P. rewrite <- P.
  destruct ((slot s + 1) mod SLOTS_PER_EPOCH E =? 0); [|subst; reflexivity].
  pose proof (evp_epoch E f s1) as Q. rewrite A3 in Q. apply evo_pointer in Q; [exact Q|discriminate].
Qed.
Lemma upgrade_pointer (E : Env) f g s t : chain_call E (f, s) (g, t) -> f <> g -> f = Capella \/ f = Deneb -> g = Capella \/ g = Deneb ->
  next_withdrawal_validator_index t = next_withdrawal_validator_index s.
Proof.
  intros H Hne Hf Hg. inversion H; subst; try congruence; try (exfalso; destruct Hf, Hg; congruence).
  match goal with H : upgrade_to_deneb E s = Ok t |- _ => unfold upgrade_to_deneb in H; rinv H; subst end. reflexivity.
Qed.
Lemma due_registered E f s i : due_at E f s i <> None -> i < lenN (validators s).
Proof. unfold due_at. destruct (nthN (validators s) i) eqn:Hv; [intros _; exact (nthN_some _ _ _ Hv)|congruence]. Qed.
Lemma wait_runs (E : Env) i M p0 z w c : ctx_sane E -> withdrawal_limits E -> waiting E i p0 (z :: w) c ->
  (forall g s, In (g, s) (z :: w) -> (g = Capella \/ g = Deneb) /\ sweep_ready s /\ lenN (validators s) <= M) ->
  (c = 0 \/ i < M) /\ c * sweep_stride E + ahead M (next_withdrawal_validator_index (snd z)) i <= ahead M (next_withdrawal_validator_index (snd p0)) i.
Proof.
  intros Hc Hl H. remember (z :: w) as zw eqn:Ez. revert z w Ez.
  induction H as [|f s t w c H IH Hb Hs|f b s t w c H IH Hd Hp Hi|f g s t w c H IH Hu Hne]; intros z w' Ez Hall; injection Ez as <- <-; cbn [fst snd] in *.
  - split; [left; reflexivity|]. rewrite N.mul_0_l. apply N.le_refl.
  - rewrite (slot_pointer E f s t Hc Hb Hs). apply (IH _ _ eq_refl). intros g u Hg. apply Hall. right. exact Hg.
  - destruct (IH _ _ eq_refl) as [_ B]; [intros g u Hg; apply Hall; right; exact Hg|]. cbn [snd] in B.
    destruct (Hall f s) as (Hf & Hr & HM); [right; left; reflexivity|]. pose proof (due_registered E f s i Hd) as Hin.
    destruct (block_sweep E f b s t Hc Hl Hf Hr Hp) as [P1 P2]. rewrite P1 in Hi. unfold expected_withdrawals in Hi. rewrite numbered_index in Hi.
    assert (Hdue : has_due E f s i = true) by (unfold has_due; destruct (due_at E f s i); congruence).
    split; [right; lia|]. destruct (no_skip_far E f s (proj1 (proj1 Hl))) as (m & Hm & Hall').
    assert (Hk : forall k, k < m -> i <> (next_withdrawal_validator_index s + k) mod lenN (validators s)) by (intros k Hk He; apply Hi, Hall'; [exists k; auto|exact Hdue]).
    destruct Hr as (_ & _ & Hr & _).
    assert (Hmn : m <= lenN (validators s)) by (destruct Hm as [->|[Hm _]]; [lia|exact Hm]).
    destruct (ahead_step M (lenN (validators s)) (next_withdrawal_validator_index s) i m Hin Hr HM Hmn Hk) as [S1 S2].
    destruct Hm as [Hm|(_ & Hm & He)]; [lia|]. rewrite <- He, <- P2 in S2. rewrite N.mul_add_distr_r, N.mul_1_l. clear - B S2 Hm. lia.
  - destruct (Hall f s) as (Hf & _); [right; left; reflexivity|]. destruct (Hall g t) as (Hg & _); [left; reflexivity|].
    rewrite (upgrade_pointer E f g s t Hu Hne Hf Hg). apply (IH _ _ eq_refl). intros g' u Hg'. apply Hall. right. exact Hg'.
Qed.
