(** * Proofs about deposits, sync committee rewards and withdrawals (proof file; no model definitions) *)
From Verif Require Import Base BaseLemmas Types Ctx Env Helpers HelpersAltair HelpersElectra Block Epoch StLemmas
  SpecCommon SpecShuffle SpecHelpers SpecElectra SpecOps SpecBlock SpecAtt SpecEpoch SpecFlow ShuffleProofs HelperProofs HelperProofs2 OpsProofs
  SlashProofs BlockProofs AttProofs EpochProofs.
From Coq Require Import Sorted.

(** ** Finding keys *)
Lemma nthN_nil {A} i : nthN (@nil A) i = None. Proof. apply nthN_none. change (lenN (@nil A)) with 0. lia. Qed.
Lemma bytes_eqb_iff a b : bytes_eqb a b = true <-> a = b.
Proof. unfold bytes_eqb. destruct (list_eq_dec _ a b); split; congruence. Qed.
Lemma position_some pk : forall vs i0 i, position_pk pk vs i0 = Some i <->
  i0 <= i /\ option_map v_public_key (nthN vs (i - i0)) = Some pk /\ forall j, j < i - i0 -> option_map v_public_key (nthN vs j) <> Some pk.
Proof.
  induction vs as [|v vs IH]; intros i0 i; cbn [position_pk].
  - split; [discriminate|intros (_ & H & _); rewrite nthN_nil in H; discriminate].
  - destruct (bytes_eqb (v_public_key v) pk) eqn:Hb.
    + apply bytes_eqb_iff in Hb. split.
      * intros [= <-]. split; [lia|]. rewrite N.sub_diag. split; [rewrite nthN_0; cbn; congruence|lia].
      * intros (H1 & H2 & H3). destruct (N.eq_dec i i0) as [->|Hne]; [reflexivity|]. exfalso. apply (H3 0); [lia|]. rewrite nthN_0; cbn. congruence.
    + assert (Hne : v_public_key v <> pk) by (intros H; apply bytes_eqb_iff in H; congruence).
      rewrite IH. split.
      * intros (H1 & H2 & H3). split; [lia|]. replace (i - i0) with (i - (i0 + 1) + 1) by lia. rewrite nthN_succ. split; [exact H2|].
        intros j Hj. destruct (N.eq_dec j 0) as [->|Hj0]; [rewrite nthN_0; cbn; congruence|]. replace j with (j - 1 + 1) by lia. rewrite nthN_succ. apply H3. lia.
      * intros (H1 & H2 & H3). destruct (N.eq_dec i i0) as [->|Hi]; [rewrite N.sub_diag, nthN_0 in H2; cbn in H2; congruence|]. split; [lia|].
        replace (i - i0) with (i - (i0 + 1) + 1) in H2 by lia. rewrite nthN_succ in H2. split; [exact H2|].
        intros j Hj. specialize (H3 (j + 1)). rewrite nthN_succ in H3. apply H3. lia.
Qed.
Lemma position_unknown pk : forall vs i0, position_pk pk vs i0 = None <-> forall j, option_map v_public_key (nthN vs j) <> Some pk.
Proof.
  intros vs i0. destruct (position_pk pk vs i0) as [i|] eqn:Hp.
  - split; [discriminate|]. intros H. apply position_some in Hp as (_ & Hp & _). exfalso. exact (H _ Hp).
  - split; [|reflexivity]. intros _. revert i0 Hp. induction vs as [|v vs IH]; intros i0 Hp j; [rewrite nthN_nil; discriminate|].
    cbn [position_pk] in Hp. destruct (bytes_eqb (v_public_key v) pk) eqn:Hb; [discriminate|].
    assert (Hne : v_public_key v <> pk) by (intros H; apply bytes_eqb_iff in H; congruence).
    destruct (N.eq_dec j 0) as [->|Hj0]; [rewrite nthN_0; cbn; congruence|]. replace j with (j - 1 + 1) by lia. rewrite nthN_succ. eapply IH. exact Hp.
Qed.
Lemma holder_position s pk i : position_pk pk (validators s) 0 = Some i <-> key_holder s pk i.
Proof.
  rewrite position_some. unfold key_holder, key_of. rewrite N.sub_0_r. split; [intros (_ & H1 & H2); auto|intros (H1 & H2)]. split; [lia|]. auto.
Qed.
Lemma unknown_position s pk : position_pk pk (validators s) 0 = None <-> key_unknown s pk.
Proof. apply position_unknown. Qed.
Lemma last_position_spec pk : forall vs i0 acc i,
  (option_map v_public_key (nthN vs i) = Some pk /\ forall j, i < j -> option_map v_public_key (nthN vs j) <> Some pk) ->
  last_position_pk pk vs i0 acc = Some (i0 + i).
Proof.
  assert (Hnone : forall vs i0 acc, (forall j, option_map v_public_key (nthN vs j) <> Some pk) -> last_position_pk pk vs i0 acc = acc).
  { induction vs as [|v vs IH]; intros i0 acc H; cbn [last_position_pk]; [reflexivity|]. rewrite IH.
    - destruct (bytes_eqb (v_public_key v) pk) eqn:Hb; [|reflexivity]. apply bytes_eqb_iff in Hb. exfalso. apply (H 0). rewrite nthN_0; cbn. congruence.
    - intros j. specialize (H (j + 1)). rewrite nthN_succ in H. exact H. }
  induction vs as [|v vs IH]; intros i0 acc i (H1 & H2); cbn [last_position_pk]; [rewrite nthN_nil in H1; discriminate|].
  destruct (N.eq_dec i 0) as [->|Hi].
  - rewrite nthN_0 in H1; cbn in H1. injection H1 as H1. rewrite (proj2 (bytes_eqb_iff _ _) H1). rewrite Hnone; [f_equal; lia|].
    intros j. specialize (H2 (j + 1)). rewrite nthN_succ in H2. apply H2. lia.
  - replace i with (i - 1 + 1) in H1 |- * by lia. rewrite nthN_succ in H1. rewrite (IH _ _ (i - 1)); [f_equal; lia|]. split; [exact H1|].
    intros j Hj. specialize (H2 (j + 1)). rewrite nthN_succ in H2. apply H2. lia.
Qed.

Section WithEnv.
Variable E : Env.
Hypothesis Hctx : ctx_sane E.

(** ** Deposits *)
Lemma deposit_domain_ok dom : compute_domain E DDeposit None None = Ok dom <-> deposit_domain E dom.
Proof. apply (compute_domain_ok E DDeposit (GENESIS_FORK_VERSION E) zero32 dom). Qed.
Lemma deposit_sig_cases pk wc amount sg dom : deposit_domain E dom ->
  (deposit_signed E pk wc amount sg /\ verify_signed_data E (ODepositMessage (mkDepMsg pk wc amount)) sg pk dom = Ok tt)
  \/ (~ deposit_signed E pk wc amount sg /\ exists e, verify_signed_data E (ODepositMessage (mkDepMsg pk wc amount)) sg pk dom = Err e).
Proof.
  intros Hd. destruct (verify_signed_data E (ODepositMessage (mkDepMsg pk wc amount)) sg pk dom) as [[]|e| |] eqn:Hv.
  - left. split; [|reflexivity]. apply verify_signed_data_ok in Hv as (root & H1 & H2). exists dom, root. auto.
  - right. split; [|eauto]. intros (dom' & root & H1 & H2 & H3). assert (dom' = dom) by (eapply is_domain_fun; eassumption). subst.
    assert (Hok : verify_signed_data E (ODepositMessage (mkDepMsg pk wc amount)) sg pk dom = Ok tt) by (apply verify_signed_data_ok; eauto). congruence.
  - exfalso. unfold verify_signed_data, compute_signing_root, htr_r, verify_sig in Hv. destruct (htr E _); cbn in Hv; [|discriminate]. destruct (htr E _); cbn in Hv; [|discriminate].
    unfold require in Hv. destruct (bls_verify _ _ _ _); discriminate.
  - exfalso. unfold verify_signed_data, compute_signing_root, htr_r, verify_sig in Hv. destruct (htr E _); cbn in Hv; [|discriminate]. destruct (htr E _); cbn in Hv; [|discriminate].
    unfold require in Hv. destruct (bls_verify _ _ _ _); discriminate.
Qed.
Lemma new_record_ok f pk wc amount : f <> Electra -> get_validator_from_deposit E pk wc amount = Ok (new_record E f pk wc amount).
Proof.
  intros Hf. unfold get_validator_from_deposit, new_record. assert (Hinc : 1 <= EFFECTIVE_BALANCE_INCREMENT E) by (clear - Hctx; ctxs Hctx; lia).
  rewrite umod_ok by lia. cbn [rbind]. unfold sub. rewrite usub_ok by (apply N.mod_le; lia). cbn [rbind]. do 2 f_equal.
  assert (Hd : amount - amount mod EFFECTIVE_BALANCE_INCREMENT E = amount / EFFECTIVE_BALANCE_INCREMENT E * EFFECTIVE_BALANCE_INCREMENT E).
  { assert (H : amount = EFFECTIVE_BALANCE_INCREMENT E * (amount / EFFECTIVE_BALANCE_INCREMENT E) + amount mod EFFECTIVE_BALANCE_INCREMENT E) by (apply N.div_mod; lia).
    set (q := amount / _) in *. set (r := amount mod _) in *. clearbody q r. rewrite (N.mul_comm q). lia. }
  rewrite Hd. destruct f; try reflexivity. contradiction.
Qed.
Lemma apply_deposit_early f pk wc amount sg s : f <> Electra -> lenN (balances s) = lenN (validators s) -> (exists dom, deposit_domain E dom) ->
  (forall b, In b (balances s) -> b + amount < 2 ^ 64) ->
  exists s', apply_deposit E f pk wc amount sg s = (Ok tt, s')
    /\ (forall i, key_holder s pk i -> s' = set_balances (credit i amount (balances s)) s)
    /\ (key_unknown s pk -> deposit_signed E pk wc amount sg -> s' = with_validator f (new_record E f pk wc amount) amount s)
    /\ (key_unknown s pk -> ~ deposit_signed E pk wc amount sg -> s' = s).
Proof.
  intros Hf Hlen (dom & Hdom) Hbal.
  assert (Ha : apply_deposit E f pk wc amount sg s = apply_deposit_phase0 E f pk wc amount sg s) by (destruct f; try reflexivity; contradiction). rewrite Ha. clear Ha.
  unfold apply_deposit_phase0. rewrite (run_rd _ _ _ (position_pk pk (validators s) 0)) by reflexivity.
  destruct (position_pk pk (validators s) 0) as [i|] eqn:Hp.
  - pose proof Hp as Hk. apply holder_position in Hk.
    assert (Hi : i < lenN (balances s)). { rewrite Hlen. destruct Hk as [Hk _]. unfold key_of in Hk. destruct (nthN (validators s) i) eqn:Hn; [|discriminate]. eapply nthN_some; eauto. }
    destruct (nthN_lt _ _ Hi) as [b Hb]. rewrite (increase_balance_ok E s i amount b Hb) by (change U64 with (2 ^ 64); apply Hbal; eapply nthN_In; eauto).
    eexists. split; [reflexivity|]. split; [|split].
    + intros j Hj. assert (Hje : Some j = Some i) by (rewrite <- Hp; symmetry; apply holder_position; exact Hj). injection Hje as ->. unfold credit. rewrite Hb. reflexivity.
    + intros Hu. apply unknown_position in Hu. congruence.
    + intros Hu. apply unknown_position in Hu. congruence.
  - rewrite (run_lift _ _ _ dom) by (apply deposit_domain_ok; exact Hdom).
    pose proof (proj1 (unknown_position s pk) Hp) as Hu.
    destruct (deposit_sig_cases pk wc amount sg dom Hdom) as [[Hs Hv]|[Hs [e Hv]]]; rewrite Hv; cbn [is_err_r].
    + rewrite (run_lift _ _ _ false) by reflexivity.
      assert (Hadd : add_validator_to_registry E f pk wc amount s = (Ok tt, with_validator f (new_record E f pk wc amount) amount s)).
      { pose proof (new_record_ok f pk wc amount Hf) as Hn. destruct f; try contradiction; unfold add_validator_to_registry; rewrite (run_lift _ _ _ _ Hn); rewrite run_md; reflexivity. }
      rewrite Hadd. eexists. split; [reflexivity|]. split; [|split].
      * intros j Hj. apply holder_position in Hj. congruence.
      * reflexivity.
      * contradiction.
    + rewrite (run_lift _ _ _ true) by reflexivity. eexists. split; [reflexivity|]. split; [|split].
      * intros j Hj. apply holder_position in Hj. congruence.
      * contradiction.
      * reflexivity.
Qed.
Lemma deposit_guard f d s : eth1_deposit_index s + 1 < 2 ^ 64 ->
  (deposit_proven E s d -> process_deposit E f d s = apply_deposit E f (dd_public_key (dep_data d)) (dd_withdrawal_credentials (dep_data d)) (dd_amount (dep_data d))
     (dd_signature (dep_data d)) (with_deposit_counted s))
  /\ (~ deposit_proven E s d -> rejected (process_deposit E f d) s).
Proof.
  intros Hi. unfold process_deposit. set (g := fun s0 : BeaconState => rbind (htr_r E (ODepositData (dep_data d))) _).
  assert (Hg : g s = Ok tt <-> deposit_proven E s d).
  { unfold g, htr_r, deposit_proven. destruct (htr E (ODepositData (dep_data d))) as [leaf|]; cbn [ok_or rbind].
    - rewrite require_ok. split; [intros H; exists leaf; auto|intros (l & [= <-] & H); exact H].
    - split; [discriminate|intros (l & H & _); discriminate]. }
  split.
  - intros H. apply Hg in H. rewrite (run_rd _ _ _ tt H). rewrite (run_rd _ _ _ (eth1_deposit_index s + 1)) by (unfold add; apply uadd_ok; exact Hi).
    rewrite run_md. reflexivity.
  - intros H. apply guard_rejects. apply not_ok. intros [] Hx. apply H. apply Hg. exact Hx.
Qed.

(** ** Sync aggregates *)
Lemma sync_checks_iff sa s : state_shape E s -> slot_small s -> sync_aggregate_checks E sa s = Ok tt <-> sync_aggregate_valid E s sa.
Proof.
  intros Hsh Hs. unfold sync_aggregate_checks, sync_aggregate_valid. cbv zeta. fold (sync_reference_slot s).
  unfold sub. rewrite usub_ok by lia. cbn [rbind]. change (N.max (slot s) 1 - 1) with (sync_reference_slot s). set (sl := sync_reference_slot s).
  rewrite epoch_at_ok by exact Hctx. cbn [rbind].
  change (map snd (filter (fun p : bool * bytes => fst p) (combine (sa_bits sa) (sc_public_keys (current_sync_committee s)))))
    with (participating_keys (sc_public_keys (current_sync_committee s)) (sa_bits sa)). set (keys := participating_keys _ _).
  assert (Hagg : forall root, eth_fast_aggregate_verify E keys root (sa_signature sa) = true
    <-> fast_aggregate_verify_ok E keys root (sa_signature sa) = true \/ (keys = [] /\ sa_signature sa = 192 :: repeat 0 95)).
  { intros root. unfold eth_fast_aggregate_verify. destruct keys as [|k ks].
    - rewrite orb_true_iff, bytes_eqb_iff. change INFINITY_SIGNATURE with (192 :: repeat 0 95). intuition.
    - split; [auto|intros [H|[H _]]; [exact H|discriminate]]. }
  split.
  - intros H. apply rbind_ok_inv in H as (dom & Hd & H). apply rbind_ok_inv in H as (block & Hb & H). apply rbind_ok_inv in H as (root & Hr & H).
    apply require_ok in H. apply get_domain_some in Hd. apply signing_root_ok in Hr.
    assert (Hrange : sl < slot s <= sl + SLOTS_PER_HISTORICAL_ROOT E).
    { unfold get_block_root_at_slot in Hb. destruct (N.leb_spec (slot s) sl); [cbn [rbind] in Hb; apply rbind_ok_inv in Hb as (x & _ & Hb); apply rbind_ok_inv in Hb as (y & _ & Hb); discriminate|].
      unfold add in Hb. rewrite uadd_ok in Hb by (assert (slot s < 72057594037927936) by (unfold slot_small in Hs; pows; lia); assert (SLOTS_PER_HISTORICAL_ROOT E <= 4294967296) by (clear - Hctx; ctxs Hctx; lia); rewrite U64_val; lia).
      cbn [rbind] in Hb. destruct (N.ltb_spec (sl + SLOTS_PER_HISTORICAL_ROOT E) (slot s)); [apply rbind_ok_inv in Hb as (x & _ & Hb); apply rbind_ok_inv in Hb as (y & _ & Hb); discriminate|]. lia. }
    split; [exact Hrange|]. destruct (block_root_at E Hctx s sl Hsh Hs (proj1 Hrange) (proj2 Hrange)) as (r & R1 & R2).
    assert (r = block) by congruence. subst r. exists block, dom, root. split; [exact R1|]. split; [exact Hd|]. split; [exact Hr|]. apply Hagg. exact H.
  - intros (Hrange & block & dom & root & H1 & H2 & H3 & H4). destruct (block_root_at E Hctx s sl Hsh Hs (proj1 Hrange) (proj2 Hrange)) as (r & R1 & R2).
    assert (r = block) by congruence. subst r. apply (get_domain_some E s DSyncCommittee) in H2. rewrite H2. cbn [rbind]. rewrite R2. cbn [rbind].
    apply signing_root_ok in H3. rewrite H3. cbn [rbind]. apply require_ok. apply Hagg. exact H4.
Qed.
Hypothesis Hatt : ctx_sane_att E.
Lemma sync_rewards_ok s : active_balance_fits E s -> 1 <= SYNC_COMMITTEE_SIZE E -> sync_rewards_fit E s ->
  sync_rewards E s = Ok (sync_member_reward E s, sync_proposer_reward E s).
Proof.
  intros Hfit Hsz (F1 & F2). unfold sync_rewards, get_base_reward_per_increment.
  assert (Hinc : 1 <= EFFECTIVE_BALANCE_INCREMENT E) by (clear - Hctx; ctxs Hctx; lia).
  assert (Hse : 1 <= SLOTS_PER_EPOCH E) by (clear - Hctx; ctxs Hctx; lia).
  rewrite !(ElectraProofs.total_active_fits E s Hctx Hfit). cbn [rbind].
  assert (Hsq : N.sqrt (active_balance E s) <> 0).
  { intros H. assert (1 <= N.sqrt (active_balance E s)) by (apply sqrt_iff; unfold active_balance; lia). lia. }
  rewrite udiv_ok by lia. cbn [rbind]. unfold mul. rewrite umul_ok by (destruct Hatt as (_ & _ & H); exact H). cbn [rbind].
  rewrite udiv_ok by exact Hsq. cbn [rbind]. fold (reward_per_increment E s). change (2 ^ 64) with U64 in *.
  unfold sync_proposer_reward, sync_member_reward in *.
  change (SYNC_REWARD_WEIGHT) with 2. change WEIGHT_DENOMINATOR with 64. change PROPOSER_WEIGHT with 8. change (64 - 8) with 56.
  rewrite umul_ok by (eapply N.le_lt_trans; [|exact F1]; rewrite <- (N.mul_1_r (reward_per_increment E s * _)) at 1; apply N.mul_le_mono_l; lia). cbn [rbind]. rewrite umul_ok by exact F1. cbn [rbind].
  rewrite udiv_ok by lia. cbn [rbind]. rewrite udiv_ok by lia. cbn [rbind]. rewrite udiv_ok by lia. cbn [rbind]. rewrite umul_ok by exact F2. cbn [rbind].
  rewrite udiv_ok by lia. reflexivity.
Qed.
Lemma sync_indices_ok s idxs : Forall2 (last_key_holder s) (sc_public_keys (current_sync_committee s)) idxs -> sync_indices s = Ok idxs.
Proof.
  unfold sync_indices. induction 1 as [|pk i l k H _ IH]; [reflexivity|]. cbn [rmap].
  assert (Hp : last_position_pk pk (validators s) 0 None = Some i) by (rewrite (last_position_spec pk (validators s) 0 None i H); reflexivity).
  rewrite Hp. cbn [expect rbind]. rewrite IH. reflexivity.
Qed.
(** balances with room for [B] more *)
Definition roomy (l : list N) (B : N) : Prop := forall b, In b l -> b + B < U64.
Lemma roomy_credit l i d B : roomy l (B + d) -> roomy (credit i d l) B.
Proof.
  intros H b Hb. unfold credit in Hb. destruct (nthN l i) as [x|] eqn:Hx.
  - apply In_updN in Hb as [->|Hb]; [|specialize (H b Hb); lia]. assert (In x l) by (eapply nthN_In; eauto). specialize (H x). lia.
  - specialize (H b Hb). lia.
Qed.
Lemma roomy_debit l i d B : roomy l B -> roomy (debit i d l) B.
Proof.
  intros H b Hb. unfold debit in Hb. destruct (nthN l i) as [x|] eqn:Hx; [|auto].
  apply In_updN in Hb as [->|Hb]; [|auto]. assert (In x l) by (eapply nthN_In; eauto). specialize (H x). lia.
Qed.
Lemma roomy_le l B B' : B' <= B -> roomy l B -> roomy l B'.
Proof. intros HB H b Hb. specialize (H b Hb). lia. Qed.
Lemma len_credit i d l : lenN (credit i d l) = lenN l.
Proof. unfold credit. destruct (nthN l i); [apply lenN_updN|reflexivity]. Qed.
Lemma len_debit i d l : lenN (debit i d l) = lenN l.
Proof. unfold debit. destruct (nthN l i); [apply lenN_updN|reflexivity]. Qed.
Lemma run_increase s i d : i < lenN (balances s) -> roomy (balances s) d -> increase_balance E i d s = (Ok tt, set_balances (credit i d (balances s)) s).
Proof.
  intros Hi Hr. destruct (nthN_lt _ _ Hi) as [b Hb]. rewrite (increase_balance_ok E s i d b Hb); [unfold credit; rewrite Hb; reflexivity|].
  apply Hr. eapply nthN_In; eauto.
Qed.
Lemma run_decrease s i d : i < lenN (balances s) -> decrease_balance E i d s = (Ok tt, set_balances (debit i d (balances s)) s).
Proof.
  intros Hi. destruct (nthN_lt _ _ Hi) as [b Hb]. rewrite (decrease_balance_ok E s i d b Hb). unfold debit; rewrite Hb. reflexivity.
Qed.
Lemma sync_loop s p pr q : get_beacon_proposer_index E s = Ok p -> p < lenN (balances s) ->
  forall l bal, lenN bal = lenN (balances s) -> (forall m, In m l -> fst m < lenN (balances s)) -> roomy bal (lenN l * (pr + q)) ->
  sfor l (sync_step E pr q) (set_balances bal s) = (Ok tt, set_balances (sync_balances pr q p l bal) s).
Proof.
  intros Hp Hpl. induction l as [|m l IH]; intros bal Hlen Hin Hr; [reflexivity|].
  rewrite sfor_cons. rewrite lenN_cons in Hr. assert (Hm : fst m < lenN bal) by (rewrite Hlen; apply Hin; left; reflexivity).
  assert (Hprop : forall bal', get_beacon_proposer_index E (set_balances bal' s) = Ok p).
  { intros bal'. rewrite (proposer_ext E s (set_balances bal' s) Hctx); [exact Hp|]. apply same_duties_fields; reflexivity. }
  unfold sync_step at 1. destruct m as [i b]. cbn [fst snd] in *. destruct b.
  - rewrite (run_bind _ _ _ tt (set_balances (credit p q (credit i pr bal)) s)).
    + rewrite IH; [reflexivity| | |].
      * rewrite !len_credit. exact Hlen.
      * intros m Hm'. apply Hin. right. exact Hm'.
      * apply roomy_credit, roomy_credit. eapply roomy_le; [|exact Hr]. lia.
    + rewrite (run_bind _ _ _ tt (set_balances (credit i pr bal) s)).
      * rewrite (run_rd _ _ _ p) by apply Hprop. rewrite run_increase; [reflexivity| |].
        -- gs. rewrite len_credit. lia.
        -- gs. apply roomy_credit. eapply roomy_le; [|exact Hr]. lia.
      * rewrite run_increase; [reflexivity|exact Hm|]. eapply roomy_le; [|exact Hr]. lia.
  - rewrite (run_bind _ _ _ tt (set_balances (debit i pr bal) s)).
    + rewrite IH; [reflexivity| | |].
      * rewrite len_debit. exact Hlen.
      * intros m Hm'. apply Hin. right. exact Hm'.
      * apply roomy_debit. eapply roomy_le; [|exact Hr]. lia.
    + rewrite run_decrease; [reflexivity|exact Hm].
Qed.
Lemma sync_aggregate_run sa s p idxs : state_shape E s -> slot_small s -> active_balance_fits E s -> 1 <= SYNC_COMMITTEE_SIZE E -> sync_rewards_fit E s ->
  lenN (balances s) = lenN (validators s) ->
  roomy (balances s) (lenN (sa_bits sa) * (sync_member_reward E s + sync_proposer_reward E s)) ->
  get_beacon_proposer_index E s = Ok p -> p < lenN (validators s) ->
  Forall2 (last_key_holder s) (sc_public_keys (current_sync_committee s)) idxs ->
  (sync_aggregate_valid E s sa -> process_sync_aggregate E sa s
     = (Ok tt, set_balances (sync_balances (sync_member_reward E s) (sync_proposer_reward E s) p (combine idxs (sa_bits sa)) (balances s)) s))
  /\ (~ sync_aggregate_valid E s sa -> rejected (process_sync_aggregate E sa) s).
Proof.
  intros Hsh Hs Hfit Hsz Hrf Hlen Hroom Hp Hpl Hidx. unfold process_sync_aggregate. split.
  - intros Hv. apply (sync_checks_iff sa s Hsh Hs) in Hv. rewrite (run_rd _ _ _ tt Hv). rewrite (run_rd _ _ _ _ (sync_rewards_ok s Hfit Hsz Hrf)).
    rewrite (run_rd _ _ _ idxs (sync_indices_ok s idxs Hidx)). cbn [fst snd].
    pose proof (sync_loop s p (sync_member_reward E s) (sync_proposer_reward E s) Hp) as HL. rewrite Hlen in HL. specialize (HL Hpl (combine idxs (sa_bits sa)) (balances s)).
    rewrite (set_balances_id s) in HL. rewrite Hlen in HL. apply HL; [reflexivity| |].
    + intros [i b] Hm. cbn [fst]. apply in_combine_l in Hm. clear - Hidx Hm. induction Hidx as [|pk j l k H _ IH]; [destruct Hm|].
      destruct Hm as [->|Hm]; [|auto]. destruct H as [H _]. unfold key_of in H. destruct (nthN (validators s) i) eqn:Hn; [|discriminate]. eapply nthN_some; eauto.
    + eapply roomy_le; [|exact Hroom]. apply N.mul_le_mono_r. unfold lenN. rewrite combine_length. lia.
  - intros Hv. apply guard_rejects. apply not_ok. intros [] Hx. apply Hv. apply sync_checks_iff; assumption.
Qed.

(** ** Withdrawal sweep *)
Lemma eth1_kind v : has_eth1_withdrawal_credential v = kind_is 1 v.
Proof. unfold has_eth1_withdrawal_credential, cred_prefix, kind_is. destruct (v_withdrawal_credentials v); reflexivity. Qed.
Lemma execution_kind v : has_execution_withdrawal_credential v = kind_is 1 v || kind_is 2 v.
Proof. unfold has_execution_withdrawal_credential. rewrite compounding_kind, eth1_kind. apply orb_comm. Qed.
Lemma max_effective_kind v : get_validator_max_effective_balance E v = balance_cap E Electra v.
Proof. unfold get_validator_max_effective_balance. rewrite compounding_kind. reflexivity. Qed.
Lemma sweep_amount_ok f s v b : sweep_amount E f v b (epoch_of E s) = Ok (sweep_due E f s v b).
Proof.
  unfold sweep_due. cbv zeta.
  assert (Hearly : f <> Electra -> sweep_amount E f v b (epoch_of E s) =
     Ok (let cap := MAX_EFFECTIVE_BALANCE E in let address := kind_is 1 v || false in
         if address && (v_withdrawable_epoch v <=? epoch_of E s) && (0 <? b) then Some b
         else if address && (v_effective_balance v =? cap) && (cap <? b) then Some (b - cap) else None)).
  { intros Hf. assert (Hs : sweep_amount E f v b (epoch_of E s) = if is_fully_withdrawable_validator v b (epoch_of E s) then Ok (Some b)
    else if is_partially_withdrawable_validator E v b then let! a := sub E b (MAX_EFFECTIVE_BALANCE E) in Ok (Some a) else Ok None) by (destruct f; try reflexivity; contradiction).
    rewrite Hs. unfold is_fully_withdrawable_validator, is_partially_withdrawable_validator. rewrite eth1_kind, orb_false_r. cbv zeta.
    destruct (kind_is 1 v && (v_withdrawable_epoch v <=? epoch_of E s) && (0 <? b)); [reflexivity|].
    destruct (kind_is 1 v && (v_effective_balance v =? MAX_EFFECTIVE_BALANCE E) && (MAX_EFFECTIVE_BALANCE E <? b)) eqn:Hp; [|reflexivity].
    apply andb_true_iff in Hp as [_ Hp]. apply N.ltb_lt in Hp. unfold sub. rewrite usub_ok by lia. reflexivity. }
  destruct f; try (rewrite Hearly by discriminate; reflexivity). clear Hearly.
  unfold sweep_amount, is_fully_withdrawable_validator_electra, is_partially_withdrawable_validator_electra. cbv zeta. rewrite execution_kind, max_effective_kind.
  set (cap := balance_cap E Electra v). destruct ((kind_is 1 v || kind_is 2 v) && (v_withdrawable_epoch v <=? epoch_of E s) && (0 <? b)); [reflexivity|].
  destruct ((kind_is 1 v || kind_is 2 v) && (v_effective_balance v =? cap) && (cap <? b)) eqn:Hp; [|reflexivity].
  apply andb_true_iff in Hp as [_ Hp]. apply N.ltb_lt in Hp. unfold sub. rewrite usub_ok by lia. reflexivity.
Qed.
Lemma sweep_spec f s start : lenN (balances s) = lenN (validators s) -> 0 < lenN (validators s) <= 2 ^ 40 ->
  forall n a wi acc, lenN acc < MAX_WITHDRAWALS_PER_PAYLOAD E -> wi + N.of_nat n < 2 ^ 64 ->
  sweep E f n s (epoch_of E s) wi ((start + a) mod lenN (validators s)) acc
  = Ok (acc ++ numbered E f s wi (firstN (MAX_WITHDRAWALS_PER_PAYLOAD E - lenN acc)
          (filter (has_due E f s) (map (fun k => (start + k) mod lenN (validators s)) (seqN a n))))).
Proof.
  intros Hlen Hm. set (m := lenN (validators s)) in *. induction n as [|n IH]; intros a wi acc Hacc Hwi.
  - cbn [sweep seqN map filter]. unfold firstN. rewrite firstn_nil. cbn [numbered]. rewrite app_nil_r. reflexivity.
  - cbn [sweep seqN map filter]. set (vi := (start + a) mod m). assert (Hvi : vi < m) by (apply N.mod_lt; lia).
    destruct (nthN_lt (validators s) vi Hvi) as [v Hv]. destruct (nthN_lt (balances s) vi) as [b Hb]; [lia|].
    pose proof Hv as Hv'. apply idx_ok in Hv'. rewrite Hv'. cbn [rbind]. pose proof Hb as Hb'. apply idx_ok in Hb'. rewrite Hb'. cbn [rbind].
    rewrite sweep_amount_ok. cbn [rbind].
    assert (Hd : due_at E f s vi = sweep_due E f s v b) by (unfold due_at; rewrite Hv, Hb; reflexivity).
    assert (Hh : has_due E f s vi = match sweep_due E f s v b with Some _ => true | None => false end) by (unfold has_due; rewrite Hd; reflexivity).
    rewrite Hh.
    assert (Hnext : add E vi 1 = Ok (vi + 1)) by (unfold add; apply uadd_ok; pows; lia).
    assert (Hmod : umod (vi + 1) m = Ok ((start + (a + 1)) mod m)).
    { rewrite umod_ok by lia. f_equal. unfold vi. rewrite N.add_mod_idemp_l by lia. f_equal. lia. }
    destruct (sweep_due E f s v b) as [amt|] eqn:Hdue; cbn [rbind].
    + unfold add at 1. rewrite uadd_ok by (change U64 with (2 ^ 64); lia). cbn [rbind snd fst].
      assert (Hw : mkWithdrawal wi vi (cred_address v) amt = mkWithdrawal wi vi (execution_address s vi) (match due_at E f s vi with Some x => x | None => 0 end)).
      { rewrite Hd. unfold execution_address. rewrite Hv. reflexivity. }
      assert (Hf1 : firstN (MAX_WITHDRAWALS_PER_PAYLOAD E - lenN acc) (vi :: filter (has_due E f s) (map (fun k => (start + k) mod m) (seqN (a + 1) n)))
        = vi :: firstN (MAX_WITHDRAWALS_PER_PAYLOAD E - lenN acc - 1) (filter (has_due E f s) (map (fun k => (start + k) mod m) (seqN (a + 1) n)))).
      { unfold firstN. replace (N.to_nat (MAX_WITHDRAWALS_PER_PAYLOAD E - lenN acc)) with (S (N.to_nat (MAX_WITHDRAWALS_PER_PAYLOAD E - lenN acc - 1))) by lia. reflexivity. }
      rewrite Hf1. cbn [numbered]. rewrite <- Hw.
      rewrite lenN_app. change (lenN [mkWithdrawal wi vi (cred_address v) amt]) with 1.
      destruct (N.eqb_spec (lenN acc + 1) (MAX_WITHDRAWALS_PER_PAYLOAD E)) as [Hfull|Hnot].
      * replace (MAX_WITHDRAWALS_PER_PAYLOAD E - lenN acc - 1) with 0 by lia. unfold firstN. cbn [N.to_nat firstn numbered]. reflexivity.
      * fold m. rewrite Hnext. cbn [rbind]. rewrite Hmod. cbn [rbind]. rewrite IH.
        -- rewrite <- app_assoc. cbn [app]. rewrite lenN_app. change (lenN [mkWithdrawal wi vi (cred_address v) amt]) with 1. rewrite N.sub_add_distr. reflexivity.
        -- rewrite lenN_app. change (lenN [mkWithdrawal wi vi (cred_address v) amt]) with 1. lia.
        -- lia.
    + cbn [snd fst]. destruct (N.eqb_spec (lenN acc) (MAX_WITHDRAWALS_PER_PAYLOAD E)); [lia|].
      fold m. rewrite Hnext. cbn [rbind]. rewrite Hmod. cbn [rbind]. rewrite IH by lia. reflexivity.
Qed.
Lemma sweep_empty f s epoch wi vi acc : sweep E f O s epoch wi vi acc = Ok acc. Proof. reflexivity. Qed.
Lemma expected_capella f s : f <> Electra -> sweep_ready s -> 1 <= MAX_WITHDRAWALS_PER_PAYLOAD E ->
  get_expected_withdrawals E f s = Ok (expected_withdrawals E f s, 0).
Proof.
  intros Hf (R1 & R2 & R3 & R4) HM.
  assert (Hg : get_expected_withdrawals E f s = let! ws := get_expected_withdrawals_capella E s in Ok (ws, 0)) by (destruct f; try reflexivity; contradiction).
  rewrite Hg. unfold get_expected_withdrawals_capella. rewrite current_epoch_ok by exact Hctx. cbn [rbind].
  replace (next_withdrawal_validator_index s) with ((next_withdrawal_validator_index s + 0) mod lenN (validators s)) by (rewrite N.add_0_r; apply N.mod_small; exact R3).
  rewrite (sweep_spec Capella s (next_withdrawal_validator_index s) R1) by (change (lenN (@nil Withdrawal)) with 0; unfold sweep_bound; pows; lia).
  cbn [rbind app]. change (lenN (@nil Withdrawal)) with 0. rewrite N.sub_0_r.
  assert (Hsame : forall i, due_at E Capella s i = due_at E f s i) by (intros i; destruct f; try reflexivity; contradiction).
  assert (Hfil : forall l, filter (has_due E Capella s) l = filter (has_due E f s) l) by (intros l; apply filter_ext; intros i; unfold has_due; rewrite Hsame; reflexivity).
  assert (Hnum : forall l wi, numbered E Capella s wi l = numbered E f s wi l) by (induction l as [|x l IH]; intros wi; cbn [numbered]; [reflexivity|rewrite IH, Hsame; reflexivity]).
  rewrite Hfil, Hnum. reflexivity.
Qed.

Lemma expected_electra s : pending_partial_withdrawals s = [] -> sweep_ready s -> 1 <= MAX_WITHDRAWALS_PER_PAYLOAD E ->
  get_expected_withdrawals E Electra s = Ok (expected_withdrawals E Electra s, 0).
Proof.
  intros Hpe (R1 & R2 & R3 & R4) HM. unfold get_expected_withdrawals, get_expected_withdrawals_electra. rewrite current_epoch_ok by exact Hctx. cbn [rbind].
  cbv zeta. rewrite Hpe. cbn [partials rbind fst snd].
  replace (next_withdrawal_validator_index s) with ((next_withdrawal_validator_index s + 0) mod lenN (validators s)) by (rewrite N.add_0_r; apply N.mod_small; exact R3).
  rewrite (sweep_spec Electra s (next_withdrawal_validator_index s) R1) by (change (lenN (@nil Withdrawal)) with 0; unfold sweep_bound; pows; lia).
  cbn [rbind app]. change (lenN (@nil Withdrawal)) with 0. rewrite N.sub_0_r. reflexivity.
Qed.
Definition plain (f : Fork) (s : BeaconState) : Prop := f = Electra -> pending_partial_withdrawals s = [].
Lemma expected_ok f s : plain f s -> sweep_ready s -> 1 <= MAX_WITHDRAWALS_PER_PAYLOAD E -> get_expected_withdrawals E f s = Ok (expected_withdrawals E f s, 0).
Proof. intros Hp Hr HM. destruct (Fork_eq_dec f Electra) as [->|Hf]; [apply expected_electra; auto|apply expected_capella; auto]. Qed.
Lemma numbered_len f s : forall l wi, lenN (numbered E f s wi l) = lenN l.
Proof. induction l as [|x l IH]; intros wi; cbn [numbered]; [reflexivity|]. rewrite !lenN_cons, IH. reflexivity. Qed.
Lemma numbered_nth f s : forall l wi k i, nthN l k = Some i ->
  nthN (numbered E f s wi l) k = Some (mkWithdrawal (wi + k) i (execution_address s i) (match due_at E f s i with Some a => a | None => 0 end)).
Proof.
  induction l as [|x l IH]; intros wi k i H; [rewrite nthN_nil in H; discriminate|]. cbn [numbered].
  destruct (N.eq_dec k 0) as [->|Hk].
  - rewrite nthN_0 in *. injection H as ->. rewrite N.add_0_r. reflexivity.
  - replace k with (k - 1 + 1) in H |- * by lia. rewrite nthN_succ in H. rewrite nthN_succ. rewrite (IH (wi + 1) _ _ H). do 2 f_equal. lia.
Qed.
Lemma numbered_index f s l wi : map w_validator_index (numbered E f s wi l) = l.
Proof. revert wi; induction l as [|x l IH]; intros wi; cbn [numbered map w_validator_index]; [reflexivity|]. rewrite IH. reflexivity. Qed.
Lemma swept_in f s i : In i (swept E f s) -> In i (sweep_order s (sweep_length E s)) /\ has_due E f s i = true.
Proof. intros H. unfold swept, firstN in H. apply filter_In. rewrite <- (firstn_skipn (N.to_nat (MAX_WITHDRAWALS_PER_PAYLOAD E)) (filter _ _)). apply in_or_app. left. exact H. Qed.
Lemma sweep_order_lt s n i : 0 < lenN (validators s) -> In i (sweep_order s n) -> i < lenN (validators s).
Proof. intros Hm H. apply in_map_iff in H as (k & <- & _). apply N.mod_lt. lia. Qed.
Lemma debit_all s ws : (forall w, In w ws -> w_validator_index w < lenN (balances s)) ->
  sfor ws (fun w => decrease_balance E (w_validator_index w) (w_amount w)) s = (Ok tt, set_balances (after_withdrawals ws (balances s)) s).
Proof.
  assert (G : forall ws bal, lenN bal = lenN (balances s) -> (forall w, In w ws -> w_validator_index w < lenN (balances s)) ->
     sfor ws (fun w => decrease_balance E (w_validator_index w) (w_amount w)) (set_balances bal s) = (Ok tt, set_balances (after_withdrawals ws bal) s)).
  { induction ws0 as [|w l IH]; intros bal Hl Hin; [reflexivity|]. rewrite sfor_cons.
    rewrite (run_bind _ _ _ tt (set_balances (debit (w_validator_index w) (w_amount w) bal) s)).
    - rewrite IH; [reflexivity|rewrite len_debit; exact Hl|]. intros x Hx. apply Hin. right. exact Hx.
    - rewrite run_decrease; [reflexivity|]. gs. rewrite Hl. apply Hin. left. reflexivity. }
  intros Hin. rewrite <- (set_balances_id s) at 1. apply G; [reflexivity|exact Hin].
Qed.
Lemma withdrawals_eqb_iff a b : withdrawals_eqb a b = true <-> a = b.
Proof. unfold withdrawals_eqb. destruct (list_eq_dec _ a b); split; congruence. Qed.
Lemma last_opt_rev {A} (l : list A) : last_opt l = match rev l with x :: _ => Some x | [] => None end.
Proof.
  destruct l as [|x t]; [reflexivity|]. unfold last_opt.
  destruct (exists_last (l := x :: t)) as (l' & y & Hl); [discriminate|]. rewrite Hl, rev_unit. f_equal.
  change (last t x) with (last t x). assert (H : last (x :: t) x = y) by (rewrite Hl; apply last_last). destruct t; [cbn in *; exact H|exact H].
Qed.
Lemma withdrawals_run f p s : plain f s -> (f = Electra -> lenN (expected_withdrawals E f s) < MAX_WITHDRAWALS_PER_PAYLOAD E) -> sweep_ready s -> withdrawal_limits E ->
  (ep_withdrawals p = expected_withdrawals E f s ->
     process_withdrawals E f p s = (Ok tt,
       set_next_withdrawal_validator_index (next_sweep_start E s (expected_withdrawals E f s))
         (set_next_withdrawal_index (next_withdrawal_index s + lenN (expected_withdrawals E f s))
           (set_balances (after_withdrawals (expected_withdrawals E f s) (balances s)) s))))
  /\ (ep_withdrawals p <> expected_withdrawals E f s -> rejected (process_withdrawals E f p) s).
Proof.
  intros Hf Hnfull Hr [HM HS]. pose proof (expected_ok f s Hf Hr (proj1 HM)) as He. destruct Hr as (R1 & R2 & R3 & R4).
  assert (Hfe : fork_le Electra f = true -> f = Electra) by (destruct f; try discriminate; reflexivity).
  unfold process_withdrawals. split.
  - intros Hp. set (ws := expected_withdrawals E f s) in *.
    rewrite (run_rd _ _ _ (ws, 0)).
    2:{ unfold withdrawals_checks. rewrite He. cbn [rbind fst]. rewrite (proj2 (withdrawals_eqb_iff _ _) Hp). reflexivity. }
    cbn [fst snd]. rewrite Hp.
    assert (Hidx : forall w, In w ws -> w_validator_index w < lenN (validators s)).
    { intros w Hw. apply (in_map w_validator_index) in Hw. unfold ws, expected_withdrawals in Hw. rewrite numbered_index in Hw.
      apply swept_in in Hw as [Hw _]. apply sweep_order_lt in Hw; [exact Hw|lia]. }
    rewrite (run_bind _ _ _ tt _ (debit_all s ws ltac:(rewrite R1; exact Hidx))). 
    set (s1 := set_balances (after_withdrawals ws (balances s)) s).
    rewrite (run_bind (swhen (fork_le Electra f) _) _ _ tt s1).
    2:{ destruct (fork_le Electra f) eqn:Hfl; [|reflexivity]. pose proof (Hf (Hfe eq_refl)) as Hpend. rewrite swhen_true.
        rewrite (run_rd _ _ _ tt) by (unfold s1; gs; rewrite Hpend; reflexivity). unfold md. f_equal. }
    rewrite last_opt_rev.
    assert (Hwlen : lenN ws <= MAX_WITHDRAWALS_PER_PAYLOAD E).
    { unfold ws, expected_withdrawals. rewrite numbered_len. unfold swept, firstN, lenN. rewrite firstn_length. lia. }
    assert (Hlast : forall w t, rev ws = w :: t -> w_index w = next_withdrawal_index s + lenN ws - 1).
    { intros w t Hrev. assert (Hws : ws = rev t ++ [w]) by (rewrite <- (rev_involutive ws), Hrev; reflexivity).
      assert (Hn : nthN ws (lenN ws - 1) = Some w).
      { rewrite Hws, lenN_app. change (lenN [w]) with 1. rewrite nthN_app_r by lia. replace (lenN (rev t) + 1 - 1 - lenN (rev t)) with 0 by lia. reflexivity. }
      assert (Hl1 : 1 <= lenN ws) by (rewrite Hws, lenN_app; change (lenN [w]) with 1; lia).
      assert (Hl2 : lenN ws = lenN (swept E f s)) by (unfold ws, expected_withdrawals; apply numbered_len).
      destruct (nthN_lt (swept E f s) (lenN ws - 1)) as [i Hi]; [lia|].
      pose proof (numbered_nth f s (swept E f s) (next_withdrawal_index s) _ _ Hi) as Hn2. fold (expected_withdrawals E f s) in Hn2. fold ws in Hn2.
      rewrite Hn in Hn2. injection Hn2 as ->. cbn [w_index]. lia. }
    assert (Hlen0 : rev ws = [] -> lenN ws = 0) by (intros H; apply (f_equal (@rev _)) in H; rewrite rev_involutive in H; cbn in H; rewrite H; reflexivity).
    rewrite (run_bind _ _ _ tt (set_next_withdrawal_index (next_withdrawal_index s + lenN ws) s1)).
    2:{ destruct (rev ws) as [|w t] eqn:Hrev.
        - rewrite (Hlen0 eq_refl), N.add_0_r. unfold sret. f_equal.
        - pose proof (Hlast w t eq_refl) as Hl.
          assert (Hpos : 1 <= lenN ws). { rewrite <- (rev_involutive ws), Hrev. cbn [rev]. rewrite lenN_app. change (lenN [w]) with 1. lia. }
          rewrite (run_lift _ _ _ (w_index w + 1)) by (unfold add; apply uadd_ok; rewrite Hl; pows; lia).
          rewrite Hl. replace (next_withdrawal_index s + lenN ws - 1 + 1) with (next_withdrawal_index s + lenN ws) by lia. reflexivity. }
    unfold next_sweep_start. destruct (N.eqb_spec (lenN ws) (MAX_WITHDRAWALS_PER_PAYLOAD E)) as [Hfull|Hnot].
    + destruct (rev ws) as [|w t] eqn:Hrev; [rewrite (Hlen0 eq_refl) in Hfull; lia|].
      assert (Hw : w_validator_index w < lenN (validators s)) by (apply Hidx; apply in_rev; rewrite Hrev; left; reflexivity).
      assert (Hfl : fork_le Electra f = false) by (destruct (fork_le Electra f) eqn:Hfl; [|reflexivity]; specialize (Hnfull (Hfe eq_refl)); lia). rewrite Hfl.
      rewrite (run_lift _ _ _ (w_validator_index w + 1)) by (unfold add; apply uadd_ok; pows; lia).
      rewrite (run_rd _ _ _ ((w_validator_index w + 1) mod lenN (validators s))) by (unfold s1; gs; apply umod_ok; lia). reflexivity.
    + rewrite (run_rd _ _ _ ((next_withdrawal_validator_index s + MAX_VALIDATORS_PER_WITHDRAWALS_SWEEP E) mod lenN (validators s))).
      2:{ unfold s1; gs. unfold add. rewrite uadd_ok by (pows; lia). cbn [rbind]. apply umod_ok. lia. }
      reflexivity.
  - intros Hp. apply guard_rejects. apply not_ok. intros e Hx. apply Hp. unfold withdrawals_checks in Hx. rewrite He in Hx. cbn [rbind fst] in Hx.
    apply rbind_ok_inv in Hx as ([] & Hx & _). apply require_ok in Hx. apply withdrawals_eqb_iff. exact Hx.
Qed.

(** ** Nobody is skipped *)
Lemma sweep_order_NoDup s n : n <= lenN (validators s) -> NoDup (sweep_order s n).
Proof.
  intros Hn. unfold sweep_order.
  assert (G : forall l, NoDup l -> (forall x, In x l -> x < lenN (validators s)) -> NoDup (map (fun k => (next_withdrawal_validator_index s + k) mod lenN (validators s)) l)).
  { induction 1 as [|x l Hx Hnd IH]; intros Hl; cbn [map]; constructor; [|apply IH; intros y Hy; apply Hl; right; exact Hy].
    intros Hin. apply in_map_iff in Hin as (y & Hy & Hyl). apply Hx. assert (Hxl : x < lenN (validators s)) by (apply Hl; left; reflexivity).
    assert (Hyl' : y < lenN (validators s)) by (apply Hl; right; exact Hyl). replace x with y; [exact Hyl|].
    set (m := lenN (validators s)) in *. set (a := next_withdrawal_validator_index s) in *. clearbody m a. clear - Hy Hxl Hyl'.
    assert (Hm : m <> 0) by lia. pose proof (N.div_mod (a + x) m Hm) as D1. pose proof (N.div_mod (a + y) m Hm) as D2. rewrite Hy in D2.
    set (r := (a + x) mod m) in *. set (q1 := (a + x) / m) in *. set (q2 := (a + y) / m) in *. clearbody r q1 q2. clear Hy.
    assert (q1 = q2); [|subst; lia]. destruct (N.lt_trichotomy q1 q2) as [H|[H|H]]; [exfalso|exact H|exfalso].
    - assert (m * (q1 + 1) <= m * q2) by (apply N.mul_le_mono_l; lia). lia.
    - assert (m * (q2 + 1) <= m * q1) by (apply N.mul_le_mono_l; lia). lia. }
  apply G; [apply NoDup_rangeN|]. intros x Hx. apply In_rangeN in Hx. lia.
Qed.
Lemma firstn_filter_split {A} (p : A -> bool) : forall l a, (1 <= a)%nat -> (a <= length (filter p l))%nat ->
  exists l1 x l2, l = l1 ++ x :: l2 /\ p x = true /\ firstn a (filter p l) = filter p l1 ++ [x].
Proof.
  induction l as [|y l IH]; intros a H1 H2; [cbn in H2; lia|]. cbn [filter] in *. destruct (p y) eqn:Hy.
  - destruct a as [|a]; [lia|]. cbn [length] in H2. destruct a as [|a].
    + exists [], y, l. split; [reflexivity|]. split; [exact Hy|]. reflexivity.
    + destruct (IH (S a)) as (l1 & x & l2 & E1 & E2 & E3); [lia|lia|]. exists (y :: l1), x, l2. split; [rewrite E1; reflexivity|]. split; [exact E2|].
      change (firstn (S (S a)) (y :: filter p l)) with (y :: firstn (S a) (filter p l)). rewrite E3. cbn [filter]. rewrite Hy. reflexivity.
  - destruct (IH a H1 H2) as (l1 & x & l2 & E1 & E2 & E3). exists (y :: l1), x, l2. split; [rewrite E1; reflexivity|]. split; [exact E2|]. cbn [filter]. rewrite Hy. exact E3.
Qed.
Lemma sweep_order_nth s n k : k < n -> nthN (sweep_order s n) k = Some ((next_withdrawal_validator_index s + k) mod lenN (validators s)).
Proof. intros H. unfold sweep_order. rewrite nthN_map, nthN_rangeN by exact H. reflexivity. Qed.
Lemma no_skip f s : 1 <= MAX_WITHDRAWALS_PER_PAYLOAD E ->
  exists m, m <= sweep_length E s
    /\ (forall i, In i (swept E f s) <-> exists k, k < m /\ i = (next_withdrawal_validator_index s + k) mod lenN (validators s) /\ has_due E f s i = true)
    /\ (m = lenN (validators s) \/ next_sweep_start E s (expected_withdrawals E f s) = (next_withdrawal_validator_index s + m) mod lenN (validators s)).
Proof.
  intros HM. set (p := has_due E f s). set (L := sweep_order s (sweep_length E s)).
  assert (HL : lenN L = sweep_length E s) by (unfold L, sweep_order; rewrite lenN_map, lenN_rangeN; reflexivity).
  assert (Hlen : lenN (expected_withdrawals E f s) = lenN (swept E f s)) by apply numbered_len.
  destruct (N.le_gt_cases (MAX_WITHDRAWALS_PER_PAYLOAD E) (lenN (filter p L))) as [Hfull|Hnot].
  - destruct (firstn_filter_split p L (N.to_nat (MAX_WITHDRAWALS_PER_PAYLOAD E))) as (l1 & x & l2 & E1 & E2 & E3); [lia|unfold lenN in Hfull; lia|].
    assert (Hsw : swept E f s = filter p l1 ++ [x]) by exact E3. exists (lenN l1 + 1).
    assert (Hb : lenN l1 + 1 <= sweep_length E s) by (rewrite <- HL, E1, lenN_app, lenN_cons; lia).
    assert (Hx : nthN L (lenN l1) = Some x) by (rewrite E1, nthN_app_r by lia; rewrite N.sub_diag; reflexivity).
    assert (Hpos : forall k, k < sweep_length E s -> nthN L k = Some ((next_withdrawal_validator_index s + k) mod lenN (validators s))) by (intros k Hk; apply sweep_order_nth; exact Hk).
    split; [exact Hb|]. split.
    + intros i. rewrite Hsw. rewrite in_app_iff, filter_In. split.
      * intros [[H1 H2]|[<-|[]]].
        -- apply In_nthN in H1 as (k & Hk). pose proof (nthN_some _ _ _ Hk) as Hkl. exists k. split; [lia|]. split; [|exact H2].
           assert (Hk' : nthN L k = Some i) by (rewrite E1, nthN_app_l by exact Hkl; exact Hk). rewrite Hpos in Hk' by lia. congruence.
        -- exists (lenN l1). split; [lia|]. split; [|exact E2]. rewrite Hpos in Hx by lia. congruence.
      * intros (k & Hk & -> & H2). destruct (N.eq_dec k (lenN l1)) as [->|Hne].
        -- right. left. rewrite Hpos in Hx by lia. congruence.
        -- left. split; [|exact H2]. eapply nthN_In with (i := k). pose proof (Hpos k ltac:(lia)) as Hk'. rewrite E1, nthN_app_l in Hk' by lia. exact Hk'.
    + right. unfold next_sweep_start. rewrite Hlen.
      assert (Hl2 : lenN (swept E f s) = MAX_WITHDRAWALS_PER_PAYLOAD E) by (unfold swept, firstN; fold p; fold L; unfold lenN in *; rewrite firstn_length; lia).
      rewrite Hl2, N.eqb_refl.
      assert (Hrev : exists w t, rev (expected_withdrawals E f s) = w :: t /\ w_validator_index w = x).
      { assert (Hm : map w_validator_index (rev (expected_withdrawals E f s)) = x :: rev (filter p l1)) by (rewrite map_rev; unfold expected_withdrawals; rewrite numbered_index, Hsw, rev_unit; reflexivity).
        destruct (rev (expected_withdrawals E f s)) as [|w t]; [discriminate|]. cbn [map] in Hm. injection Hm as Hm _. eauto. }
      destruct Hrev as (w & t & -> & ->). rewrite Hpos in Hx by lia. injection Hx as <-.
      destruct (N.eq_dec (lenN (validators s)) 0) as [Hz|Hz].
      * unfold sweep_length in Hb. lia.
      * rewrite N.add_mod_idemp_l by exact Hz. f_equal. lia.
  - exists (sweep_length E s). split; [lia|].
    assert (Hsw : swept E f s = filter p L) by (unfold swept, firstN; fold p; fold L; apply firstn_all2; unfold lenN in Hnot; lia).
    split.
    + intros i. rewrite Hsw, filter_In. split.
      * intros [H1 H2]. apply in_map_iff in H1 as (k & <- & Hk). apply In_rangeN in Hk. exists k. auto.
      * intros (k & Hk & -> & H2). split; [|exact H2]. apply in_map_iff. exists k. split; [reflexivity|]. apply In_rangeN. exact Hk.
    + unfold sweep_length. destruct (N.le_gt_cases (lenN (validators s)) (MAX_VALIDATORS_PER_WITHDRAWALS_SWEEP E)) as [H|H]; [left; lia|right].
      unfold next_sweep_start. rewrite Hlen, Hsw. destruct (N.eqb_spec (lenN (filter p L)) (MAX_WITHDRAWALS_PER_PAYLOAD E)); [lia|]. do 2 f_equal. lia.
Qed.
End WithEnv.
