(** * What an epoch transition can mint (proof file; no model definitions) *)
From Verif Require Import Base BaseLemmas Types Ctx Env Helpers HelpersAltair HelpersElectra Block Epoch Transition StLemmas Frame
  SpecCommon SpecShuffle SpecRegistry SpecHelpers SpecElectra SpecOps SpecBlock SpecAtt SpecFinality SpecSlots SpecEpoch SpecFlow SpecQueues SpecPhase0 SpecTotal SpecIncentive SpecIssuance
  HelperProofs HelperProofs2 FrameProofs HistoryProofs AttProofs SlotProofs FinalityProofs QueueProofs EpochProofs RewardProofs TotalProofs IssuanceProofs PropsEpoch PropsIncentive.

(** ** Steps that do not make the validators richer *)
Definition keep (s t : BeaconState) : Prop := balances t = balances s /\ pending_balance_deposits t = pending_balance_deposits s.
Lemma keep_refl s : keep s s. Proof. split; reflexivity. Qed.
Lemma keep_trans a b c : keep a b -> keep b c -> keep a c.
Proof. intros [A1 A2] [B1 B2]. split; congruence. Qed.
Lemma keep_mod i g : pres keep (mod_validator i g).
Proof. intros s. unfold mod_validator, sbind, rd, md. destruct (idx (validators s) i); cbn [snd]; try apply keep_refl. split; gs; reflexivity. Qed.
Ltac kp1 :=
  match goal with
  | |- forall _, _ => intro
  | |- pres keep (sbind _ _) => apply pres_bind; [exact keep_trans| |]
  | |- pres keep (rd _) => apply pres_rd; exact keep_refl
  | |- pres keep (lift _) => apply pres_lift; exact keep_refl
  | |- pres keep (sret _) => apply pres_ret; exact keep_refl
  | |- pres keep (swhen _ _) => apply pres_when; [exact keep_refl|]
  | |- pres keep (sfor _ _) => apply pres_for; [exact keep_refl|exact keep_trans|]
  | |- pres keep (mod_validator _ _) => apply keep_mod
  | |- pres keep (match ?x with _ => _ end) => destruct x
  | |- pres keep (let _ := _ in _) => cbv zeta
  | |- pres keep (md _) => apply pres_md; intro; first [split; gs; reflexivity | apply keep_refl]
  end.
Ltac kp := repeat kp1.
Section Rich.
Context (E : Env) (f : Fork).
Hypothesis Hchk : chk E = true.

Definition norich {A} (m : St BeaconState A) : Prop := forall s a t, m s = (Ok a, t) -> wealth t <= wealth s.
Lemma nr_keep {A} (m : St BeaconState A) : pres keep m -> norich m.
Proof. intros H s a t Hm. specialize (H s). rewrite Hm in H. destruct H as [H1 H2]. cbn [snd] in *. unfold wealth. rewrite H1, H2. apply N.le_refl. Qed.
Lemma nr_bind {A B} (m : St BeaconState A) (k : A -> St BeaconState B) : norich m -> (forall a, norich (k a)) -> norich (sbind m k).
Proof. intros H1 H2 s a t H. apply sbind_ok_inv in H as (x & s1 & A1 & A2). specialize (H1 _ _ _ A1). specialize (H2 _ _ _ _ A2). lia. Qed.
Lemma nr_for {A} (l : list A) (k : A -> St BeaconState unit) : (forall a, norich (k a)) -> norich (sfor l k).
Proof. intros H. induction l as [|x l IH]; cbn [sfor]; [apply nr_keep; kp|]. apply nr_bind; [apply H|intros _; exact IH]. Qed.
Lemma nr_when b (m : St BeaconState unit) : norich m -> norich (swhen b m).
Proof. intros H. destruct b; [exact H|]. apply nr_keep; cbn [swhen]; kp. Qed.
Lemma nr_decrease i d : norich (decrease_balance E i d).
Proof.
  intros s a t H. unfold decrease_balance in H. sinv H. rinv H0. rename x0 into b. unfold wealth. gs.
  match goal with H : nthN _ _ = Some _ |- _ => pose proof (sum_updN _ _ _ x H) end.
  assert (x <= b); [|lia]. destruct (N.ltb_spec b d); [apply Ok_inj in H0; lia|]. unfold sub, usub in H0. rewrite Hchk in H0. destruct (N.leb_spec d b); [|lia]. apply Ok_inj in H0. lia.
Qed.
Lemma keep_exit i : pres keep (initiate_exit E f i).
Proof. destruct f; unfold initiate_exit, initiate_validator_exit, initiate_validator_exit_electra, compute_exit_epoch_and_update_churn; kp. Qed.
Lemma nr_registry : norich (process_registry_updates E f).
Proof. apply nr_keep. unfold process_registry_updates, registry_step. kp; apply keep_exit. Qed.
Lemma nr_slashings : norich (process_slashings E f).
Proof.
  unfold process_slashings, slashings_step. repeat first [apply nr_bind; [apply nr_keep; kp|intros ?] | apply nr_for; intros ?]. destruct (v_slashed _); [|apply nr_keep; kp].
  apply nr_bind; [apply nr_keep; kp|intros ?]. apply nr_when. apply nr_bind; [apply nr_keep; kp|intros ?]. apply nr_decrease.
Qed.
Lemma loop_wealth l : forall av p c s p' c' t, pending_deposits_loop E l av p c s = (Ok (p', c'), t) ->
  c <= c' /\ c' - c <= lenN l /\ sumN (balances t) = sumN (balances s) + queue_total (firstN (c' - c) l) /\ pending_balance_deposits t = pending_balance_deposits s.
Proof.
  induction l as [|d l IH]; intros av p c s p' c' t H; cbn [pending_deposits_loop] in H.
  - unfold sret in H. injection H as <- <- <-. rewrite N.sub_diag, firstN_0, queue_total_nil. repeat split; [apply N.le_refl|apply N.le_0_l|lia].
  - sinv H. destruct (av <? x).
    + unfold sret in H. injection H as <- <- <-. rewrite N.sub_diag, firstN_0, queue_total_nil. repeat split; [apply N.le_refl|apply N.le_0_l|lia].
    + apply sbind_ok_inv in H as ([] & s1 & H1 & H). unfold increase_balance in H1. sinv H1. rinv H2. apply (add_exact E _ _ _ Hchk) in H2. subst x0.
      match goal with H : nthN (balances s) _ = Some ?b |- _ => pose proof (sum_updN _ _ _ (b + pbd_amount d) H) as HS end.
      apply IH in H as (A1 & A2 & A3 & A4). gsh A3. gsh A4. split; [lia|]. rewrite lenN_cons. split; [lia|]. split; [|exact A4].
      replace (c' - c) with (c' - (c + 1) + 1) by lia. rewrite firstN_succ, queue_total_cons. lia.
Qed.
Lemma nr_deposits : norich (process_pending_balance_deposits E).
Proof.
  intros s a t H. unfold process_pending_balance_deposits in H. sinv H. apply Ok_inj in H1. subst x0. destruct x1 as [p c].
  match goal with H : pending_deposits_loop _ _ _ _ _ _ = _ |- _ => apply loop_wealth in H as (_ & _ & A3 & A4) end. cbn [fst snd] in *. rewrite N.sub_0_r in A3.
  unfold wealth. gs. rewrite A3, A4. pose proof (firstN_skipN c (pending_balance_deposits s)) as Hq. rewrite <- Hq at 3. rewrite queue_total_app. lia.
Qed.
Lemma nr_excess i : norich (queue_excess_active_balance E i).
Proof.
  intros s a t H. unfold queue_excess_active_balance in H. sinv H. apply idx_ok in H0. destruct (N.ltb_spec (MIN_ACTIVATION_BALANCE E) x) as [Hlt|]; [|sinv H; apply N.le_refl].
  sinv H. apply ok_or_ok in H1. unfold csub in H1. destruct (_ <=? _); [|discriminate]. injection H1 as <-.
  unfold wealth. gs. unfold queue_total. rewrite map_app, sumN_app. cbn [map pbd_amount]. rewrite sumN_cons.
  change (sumN []) with 0. pose proof (sum_updN _ _ _ (MIN_ACTIVATION_BALANCE E) H0). lia.
Qed.
Lemma nr_compounding i : norich (switch_to_compounding_validator E i).
Proof.
  unfold switch_to_compounding_validator. apply nr_bind; [apply nr_keep; kp|]. intros v. destruct (has_eth1_withdrawal_credential v); [|apply nr_keep; kp].
  apply nr_bind; [apply nr_keep; kp|]. intros _. apply nr_excess.
Qed.
Lemma move_wealth i j s ab u t : get_active_balance E s i = Ok ab -> decrease_balance E i ab s = (Ok tt, u) -> increase_balance E j ab u = (Ok tt, t) -> wealth t <= wealth s.
Proof.
  intros Ha Hd Hi. unfold get_active_balance in Ha. rinv Ha. unfold decrease_balance in Hd. sinv Hd. rinv Hd0. rewrite Ha1 in Hd1. injection Hd1 as <-.
  destruct (N.ltb_spec x0 ab) as [Hlt|Hge]; [exfalso; clear - Ha Hlt; lia|]. unfold sub, usub in Hd0. rewrite Hchk in Hd0. destruct (N.leb_spec ab x0); [|lia]. apply Ok_inj in Hd0.
  unfold increase_balance in Hi. sinv Hi. rinv Hi0. apply (add_exact E _ _ _ Hchk) in Hi0. gsh Hi1. pose proof (sum_updN _ _ _ x1 Ha1) as S1. pose proof (sum_updN _ _ _ x2 Hi1) as S2. unfold wealth. gs.
  clear - S1 S2 Hd0 Hi0 Hge. lia.
Qed.
Lemma nr_loop l : forall c, norich (pending_consolidations_loop E l c).
Proof.
  induction l as [|p l IH]; intros c; cbn [pending_consolidations_loop]; [apply nr_keep; kp|]. apply nr_bind; [apply nr_keep; kp|intros src]. destruct (v_slashed src); [apply IH|].
  apply nr_bind; [apply nr_keep; kp|intros cur]. destruct (cur <? _); [apply nr_keep; kp|]. apply nr_bind; [apply nr_compounding|intros _].
  intros s a t H. apply sbind_ok_inv in H as (ab & s1 & H1 & H). apply inv_rd in H1 as [H1 ->]. apply sbind_ok_inv in H as ([] & s2 & H2 & H). apply sbind_ok_inv in H as ([] & s3 & H3 & H).
  apply IH in H. pose proof (move_wealth _ _ _ _ _ _ H1 H2 H3). lia.
Qed.
Lemma nr_consolidations : norich (process_pending_consolidations E).
Proof. unfold process_pending_consolidations. apply nr_bind; [apply nr_keep; kp|intros l]. apply nr_bind; [apply nr_loop|intros n]. apply nr_keep; kp. Qed.
Lemma nr_rest : norich (epoch_rest E f).
Proof.
  unfold epoch_rest. apply nr_bind; [apply nr_registry|intros _]. apply nr_bind; [apply nr_slashings|intros _]. apply nr_bind; [apply nr_keep; unfold process_eth1_data_reset; kp|intros _].
  apply nr_bind; [apply nr_when, nr_bind; [apply nr_deposits|intros _; apply nr_consolidations]|intros _].
  apply nr_bind; [apply nr_keep; unfold process_effective_balance_updates, effective_balance_step; kp|intros _]. apply nr_bind; [apply nr_keep; unfold process_slashings_reset; kp|intros _].
  apply nr_bind; [apply nr_keep; unfold process_randao_mixes_reset; kp|intros _]. apply nr_bind; [apply nr_keep; unfold process_historical_update; kp|intros _].
  apply nr_keep. unfold process_participation_record_updates, process_participation_flag_updates, process_sync_committee_updates. kp.
Qed.
End Rich.

(** ** The transition *)
Section Turn.
Context (E : Env) (f : Fork).
Hypothesis Hchk : chk E = true.
Hypothesis Hctx : ctx_sane E.
Hypothesis Hm : mainnet_scale E.
Hypothesis Hatt : ctx_sane_att E.
Hypothesis Hwf : hash_wf (hash E).
Hypothesis Hf : f <> Phase0.

Lemma leak_sum s : rewards_ready E f s -> leaking E s = true -> sumN (balances (snd (process_rewards_and_penalties E f s))) <= sumN (balances s).
Proof.
  intros Hr Hl. destruct (ready_run E f s Hr) as (bs & H1 & H2 & H3). apply sumN_le_nth.
  - rewrite H1. gs. exact H2.
  - intros i x y Hx Hy. eapply (C95_leak E f s i x y Hr Hl); eassumption.
Qed.
Lemma turn_wealth s t : within_bounds E f s -> 0 < slot s mod SLOTS_PER_EPOCH E -> process_epoch E f s = (Ok tt, t) ->
  wealth t <= wealth s + vote_gain_bound E s /\ (leaking E t = true \/ epoch_of E s = 0 -> wealth t <= wealth s).
Proof.
  intros W Hpos H. pose proof (evp_epoch E f s) as P. rewrite H in P. cbn [snd] in P. assert (St : slot t = slot s) by (apply (frame_slot E f _ _ _ P); discriminate).
  assert (Hv : votes_recorded E f s). { destruct W. destruct wb_aligned as [_ X]. destruct (X Hf) as (A & B & _). clear - Hf A B. destruct f; try contradiction; split; assumption. }
  destruct (just_run E Hctx Hatt Hwf f s W Hpos Hv) as (s1 & H1 & D1 & F1). destruct (just_pre E f s s1 W D1 F1) as (P1 & S1 & V1 & I1 & B1 & _).
  assert (Fz : finalized_checkpoint t = finalized_checkpoint s1).
  { pose proof H as Ht. rewrite epoch_split, (run_bind _ _ _ _ _ H1) in Ht. pose proof (evp_tail E f false s1) as T. rewrite Ht in T. cbn [snd] in T. apply (frame_finality E f _ _ _ T). discriminate. }
  rewrite epoch_rest_eq, (run_bind _ _ _ _ _ H1) in H.
  assert (E1 : prev_epoch_of E s1 = prev_epoch_of E s) by (unfold prev_epoch_of, epoch_of; rewrite S1; reflexivity).
  destruct (inactivity_ok E Hctx Hm s1) as (sc & H2 & L2 & X2).
  { destruct P1. destruct pr_aligned as [A B]. split; [exact A|]. intros _. exact (B Hf). } { rewrite E1. exact F1. } { rewrite I1. apply W. }
  assert (H2' : swhen (fork_le Altair f) (process_inactivity_updates E) s1 = (Ok tt, set_inactivity_scores sc s1)) by (clear - Hf H2; destruct f; try contradiction; exact H2).
  rewrite (run_bind _ _ _ _ _ H2') in H. set (s2 := set_inactivity_scores sc s1) in *.
  assert (P2 : pre_rewards E f s2).
  { destruct P1. constructor; try assumption. destruct pr_aligned as [A B]. split; [exact A|]. intros Hf'. destruct (B Hf') as (B2 & B3 & B4). unfold s2. gs. repeat split; congruence. }
  apply sbind_ok_inv in H as ([] & s3 & H3 & H).
  assert (R : wealth t <= wealth s3) by (eapply (nr_rest E f Hchk); exact H).
  assert (W2 : sumN (balances s2) = sumN (balances s) /\ pending_balance_deposits s2 = pending_balance_deposits s /\ vote_gain_bound E s2 = vote_gain_bound E s).
  { unfold s2. clear - D1. destruct D1 as [->|(a & b & c & d & -> & _)]; repeat split; reflexivity. }
  destruct W2 as (W2 & Q2 & G2).
  assert (Ep : epoch_of E s2 = epoch_of E s) by (unfold epoch_of; f_equal; exact S1).
  destruct (N.eq_dec (epoch_of E s2) 0) as [He|He].
  { rewrite (C32_genesis_epoch E f s2 Hctx He) in H3. injection H3 as <-. assert (wealth s2 = wealth s) by (unfold wealth; rewrite W2, Q2; reflexivity). split; [|intros _]; lia. }
  assert (Hr : rewards_ready E f s2).
  { destruct P2. assert (Hb : forall b, In b (balances s2) -> b < 2 ^ 61) by (intros b Hin; apply sumN_In in Hin; unfold SpecTotal.held in *; clear - Hin pr_held; lia).
    exact (conj Hctx (conj Hatt (conj Hf (conj He (conj pr_aligned (conj pr_fin (conj (stake_fits_scale s2 pr_stake) (rewards_fit_scale E Hm f s2 pr_eff pr_stake pr_turn X2 Hb)))))))). }
  destruct (ready_run E f s2 Hr) as (bs & K1 & K2 & _). pose proof (C95_issuance E f s2 Hr) as C. pose proof (leak_sum s2 Hr) as L. rewrite K1 in H3, C, L. cbn [snd] in C, L. injection H3 as <-.
  gsh C. gsh L. assert (Ws : wealth (set_balances bs s2) = sumN bs + queue_total (pending_balance_deposits s)) by (unfold wealth; gs; rewrite Q2; reflexivity).
  fold (vote_gain_bound E s2) in C. split.
  - rewrite <- G2. unfold wealth at 2. unfold vote_gain_bound. rewrite W2 in C. clear - R C Ws. lia.
  - intros [Hl|Hz]; [|rewrite Ep in He; contradiction]. assert (Hl2 : leaking E s2 = true).
    { rewrite <- Hl. unfold leaking, prev_epoch_of, epoch_of. rewrite Fz, St. unfold s2. gs. rewrite S1. reflexivity. }
    specialize (L Hl2). unfold wealth at 2. rewrite W2 in L. clear - R L Ws. lia.
Qed.
End Turn.
