(** * Proofs about the state epoch processing leaves behind in electra (proof file; no model definitions) *)
From Verif Require Import Base BaseLemmas Types Ctx Env Helpers HelpersAltair HelpersElectra Block Epoch Transition StLemmas
  SpecCommon SpecShuffle SpecHelpers SpecElectra SpecOps SpecBlock SpecAtt SpecFlow SpecFinality SpecSlots SpecEpoch SpecRegistry SpecQueues SpecPhase0 SpecTotal SpecCrash
  ShuffleProofs HelperProofs HelperProofs2 OpsProofs ElectraProofs SlashProofs AttProofs BlockProofs FlowProofs FinalityProofs EpochProofs RegistryProofs RewardProofs PeriodicProofs QueueProofs SlotProofs Phase0Proofs PropsFinality PropsEpoch PropsQueues PropsPhase0 TotalProofs CrashProofs CrashElectra CrashSlots CrashEpoch.

Section C.
Variable E : Env.
Hypothesis Hctx : ctx_sane E.
Hypothesis Hel : ctx_sane_electra E.

(** ** the exit queue during the registry step *)
(** no exit is scheduled after [P] as long as each staying validator may push the queue by its whole balance *)
Definition qr (P X : N) (t : BeaconState) : Prop :=
  active_balance_fits E t /\ exit_queue_start E t + staying (validators t) <= P /\ exits_below t (P + 1) /\ exit_balance_to_consume t <= X /\ exit_churn E t <= X.
Lemma qr_elig P X t i v e : nthN (validators t) i = Some v -> qr P X t -> qr P X (set_validators (updN (validators t) i (set_v_activation_eligibility_epoch e v)) t).
Proof.
  intros Hv (H1 & H2 & H3 & H4 & H5). set (t' := set_validators _ _).
  assert (Hd : same_duties E t t') by (apply same_duties_upd with (v := v); [exact Hv|reflexivity|reflexivity]).
  destruct (same_duties_churn E t t' Hd) as (Hc & Hfit & He & _). split; [auto|]. split.
  { unfold exit_queue_start. rewrite He. change (earliest_exit_epoch t') with (earliest_exit_epoch t). fold (exit_queue_start E t).
    unfold t'. gs. rewrite (staying_same _ _ v); [exact H2|exact Hv|reflexivity|reflexivity]. }
  split. { intros w Hw Hn. unfold t' in Hw. gsh Hw. apply In_updN in Hw as [->|Hw]; [|apply H3; assumption]. gs. gsh Hn. apply H3; [eapply nthN_In; eauto|exact Hn]. }
  split; [exact H4|]. rewrite Hc. exact H5.
Qed.
Lemma qr_exit P X t i v : P < 2 ^ 60 -> X < 2 ^ 60 -> slot_small t -> nthN (validators t) i = Some v -> qr P X t ->
  exists t1, initiate_exit E Electra i t = (Ok tt, t1) /\ qr P X t1 /\ slot t1 = slot t.
Proof.
  intros HP HX Hs Hv (Hf & Hst & Hex & Hb & Hch). destruct (N.eq_dec (v_exit_epoch v) FAR_FUTURE_EPOCH) as [Hne|Hne].
  - pose proof (staying_le _ _ _ Hv Hne) as Hsl. exists (exit_electra_state E t i v).
    split; [exact (initiate_exit_electra_ok E Hctx Hel t i v Hs Hf ltac:(pows; lia) ltac:(pows; lia) ltac:(pows; lia) Hv Hne)|]. split; [|reflexivity].
    set (s1 := exit_electra_state E t i v). set (q := exit_slot E t (v_effective_balance v)).
    pose proof (exit_electra_duties E Hctx t i v Hs Hv Hne) as Hd. fold s1 in Hd.
    destruct (same_duties_churn E t s1 Hd) as (Hc & Hfit & He & _).
    destruct (exit_capacity_after E Hctx Hel t i v Hs Hv Hne) as (Hst' & Hbu & Hcap). fold s1 q in Hst', Hbu, Hcap.
    pose proof (exit_churn_bounds E Hctx Hel t) as Hp.
    assert (Hqle : q <= exit_queue_start E t + v_effective_balance v).
    { unfold q, exit_slot. pose proof (churn_epochs_le (exit_churn E t) (exit_queue_budget E t) (v_effective_balance v) ltac:(lia)). lia. }
    assert (Hqne : q <> FAR_FUTURE_EPOCH) by (unfold FAR_FUTURE_EPOCH; pows; lia).
    split; [auto|]. split.
    { rewrite Hst'. assert (validators s1 = updN (validators t) i (exited E q v)) as -> by reflexivity.
      pose proof (staying_upd (validators t) i v (exited E q v) Hv Hne ltac:(unfold exited; gs; exact Hqne)). lia. }
    split. { intros w Hw Hn. assert (Hw' : In w (updN (validators t) i (exited E q v))) by exact Hw. apply In_updN in Hw' as [->|Hw']; [unfold exited; gs; lia|exact (Hex w Hw' Hn)]. }
    split; [|rewrite Hc; exact Hch].
    assert (exit_balance_to_consume s1 = exit_capacity E t q - v_effective_balance v) as -> by reflexivity.
    pose proof (churn_epochs_rest (exit_churn E t) (exit_queue_budget E t) (v_effective_balance v) ltac:(lia)) as Hrr.
    unfold exit_capacity. unfold q, exit_slot.
    replace (exit_queue_start E t + churn_epochs (exit_churn E t) (exit_queue_budget E t) (v_effective_balance v) - exit_queue_start E t)
      with (churn_epochs (exit_churn E t) (exit_queue_budget E t) (v_effective_balance v)) by lia.
    eapply N.le_trans; [exact Hrr|]. unfold exit_queue_budget. destruct (earliest_exit_epoch t <? earliest_exit E t); lia.
  - exists t. split; [exact (initiate_exit_electra_noop E t i v Hv Hne)|]. repeat split; assumption.
Qed.
Lemma qr_step P X i t t' : P < 2 ^ 60 -> X < 2 ^ 60 -> slot_small t -> qr P X t -> registry_step E Electra (epoch_of E t) i t = (Ok tt, t') -> qr P X t' /\ slot t' = slot t.
Proof.
  intros HP HX Hs Hq H. unfold registry_step in H. apply sbind_ok_inv in H as (v & u & Hv & H). apply inv_rd in Hv as [Hv ->]. apply idx_ok in Hv.
  apply sbind_ok_inv in H as ([] & t0 & H0 & H).
  assert (Q0 : qr P X t0 /\ slot t0 = slot t).
  { destruct (queue_eligible E Electra v); cbn [swhen] in H0; [|injection H0 as <-; auto].
    apply sbind_ok_inv in H0 as (e & t00 & H0 & H1). unfold lift in H0. assert (t00 = t) by congruence. subst t00.
    rewrite (mod_validator_ok _ _ _ _ Hv) in H1. injection H1 as <-. split; [apply qr_elig; assumption|reflexivity]. }
  destruct Q0 as [Q0 S0]. apply sbind_ok_inv in H as (v' & u & Hv' & H). apply inv_rd in Hv' as [Hv' ->]. apply idx_ok in Hv'.
  destruct (_ && _); cbn [swhen] in H; [|injection H as <-; auto].
  destruct (qr_exit P X t0 i v' HP HX ltac:(unfold slot_small in *; rewrite S0; exact Hs) Hv' Q0) as (t1 & R1 & R2 & R3). rewrite R1 in H. injection H as <-. split; [exact R2|congruence].
Qed.
Lemma qr_loop P X e l : P < 2 ^ 60 -> X < 2 ^ 60 -> forall t t', slot_small t -> e = epoch_of E t -> qr P X t -> sfor l (registry_step E Electra e) t = (Ok tt, t') -> qr P X t'.
Proof.
  intros HP HX. induction l as [|i l IH]; intros t t' Hs He Hq H; [injection H as <-; exact Hq|].
  rewrite sfor_cons in H. apply sbind_ok_inv in H as ([] & t1 & H1 & H). subst e. destruct (qr_step P X i t t1 HP HX Hs Hq H1) as [Q1 S1].
  apply (IH t1 t'); [unfold slot_small in *; rewrite S1; exact Hs|unfold epoch_of; rewrite S1; reflexivity|exact Q1|exact H].
Qed.
Definition queue_kept (s t : BeaconState) : Prop := exits_kept s t /\ earliest_exit_epoch t = earliest_exit_epoch s /\ exit_balance_to_consume t = exit_balance_to_consume s.
Lemma qk_refl s : queue_kept s s. Proof. split; [apply ek_refl|auto]. Qed.
Lemma qk_trans a b c : queue_kept a b -> queue_kept b c -> queue_kept a c.
Proof. intros (H1 & H2 & H3) (K1 & K2 & K3). split; [eapply ek_trans; eassumption|]. split; congruence. Qed.
Lemma qk_activate i ae : pres queue_kept (mod_validator i (set_v_activation_epoch ae)).
Proof.
  intros s. split; [apply ek_activate|]. unfold mod_validator, sbind, rd. destruct (idx (validators s) i) as [v|e| |]; cbn [snd]; auto.
Qed.
Lemma registry_exits_electra P X s s' : P < 2 ^ 60 -> X < 2 ^ 60 -> slot_small s -> qr P X s -> process_registry_updates E Electra s = (Ok tt, s') ->
  exits_below s' (P + 1) /\ earliest_exit_epoch s' <= P /\ exit_balance_to_consume s' <= X.
Proof.
  intros HP HX Hs Hq H. unfold process_registry_updates in H. rewrite (run_rd _ _ _ (epoch_of E s)) in H by (apply current_epoch_ok; exact Hctx).
  rewrite (run_rd _ _ _ (lenN (validators s))) in H by reflexivity. apply sbind_ok_inv in H as ([] & t & H1 & H).
  pose proof (qr_loop P X _ _ HP HX s t Hs eq_refl Hq H1) as (Q1 & Q2 & Q3 & Q4 & _).
  match type of H with ?m t = _ => assert (K : pres queue_kept m) end.
  { apply (pres_bind _ qk_trans); [apply (pres_lift _ qk_refl)|]; intros ae. apply (pres_for _ qk_refl qk_trans); intros i.
    apply (pres_bind _ qk_trans); [apply (pres_rd _ qk_refl)|]; intros v. apply (pres_bind _ qk_trans); [apply (pres_rd _ qk_refl)|]; intros b.
    destruct b; cbn [swhen]; [apply qk_activate|intros u; apply qk_refl]. }
  specialize (K t). rewrite H in K. cbn [snd] in K. destruct K as (K1 & K2 & K3). split; [exact (K1 _ Q3)|]. rewrite K2, K3. split; [|exact Q4].
  unfold exit_queue_start in Q2. lia.
Qed.

Hypothesis Hm : mainnet_scale E.
Hypothesis Hep : ctx_sane_epoch E.
Hypothesis Hhash : hashing_total E.
Hypothesis Hnb : narrow_band E.

(** ** the queues of pending deposits and consolidations *)
Definition same_but_credentials (vs ws : list Validator) : Prop :=
  lenN ws = lenN vs /\ forall i v, nthN vs i = Some v -> exists wc, nthN ws i = Some (set_v_withdrawal_credentials wc v).
Lemma sbc_refl vs : same_but_credentials vs vs.
Proof. split; [reflexivity|]. intros i v Hv. exists (v_withdrawal_credentials v). rewrite Hv. destruct v; reflexivity. Qed.
Lemma sbc_trans a b c : same_but_credentials a b -> same_but_credentials b c -> same_but_credentials a c.
Proof.
  intros [H1 H2] [K1 K2]. split; [congruence|]. intros i v Hv. destruct (H2 i v Hv) as (x & Hx). destruct (K2 i _ Hx) as (y & Hy). exists y. rewrite Hy. destruct v; reflexivity.
Qed.
Definition queue_parts (s t : BeaconState) : Prop :=
  exists p bs ws, t = set_pending_balance_deposits p (set_balances bs (set_validators ws s)).
Lemma qp_refl s : queue_parts s s. Proof. exists (pending_balance_deposits s), (balances s), (validators s). destruct s; reflexivity. Qed.
Lemma qp_trans a b c : queue_parts a b -> queue_parts b c -> queue_parts a c.
Proof. intros (p & x & w & ->) (p' & x' & w' & ->). exists p', x', w'. destruct a; reflexivity. Qed.
Lemma qp_consolidated l : forall s, queue_parts s (fold_left (consolidated E) l s).
Proof.
  induction l as [|c l IH]; intros s; [apply qp_refl|]. cbn [fold_left]. eapply qp_trans; [|apply IH]. unfold consolidated.
  destruct (nthN (validators s) (pc_source_index c)) as [v|]; [|apply qp_refl]. destruct (v_slashed v); [apply qp_refl|]. cbv zeta.
  destruct (compounded_frame E s (pc_target_index c)) as (Hf & _ & _). set (u := compounded E (pc_target_index c) s) in *. set (bs := credit _ _ _). clearbody bs.
  rewrite Hf. clear. exists (pending_balance_deposits u), bs, (validators u). destruct s; reflexivity.
Qed.
Lemma queues_more s : slot_small s -> queue_sound s -> registered_stake s < 2 ^ 57 -> deposit_balance_to_consume s < 2 ^ 62 -> consolidations_sound s ->
  exists c d p bs ws, let t := set_pending_consolidations c (set_deposit_balance_to_consume d (set_pending_balance_deposits p (set_balances bs (set_validators ws s)))) in
    (process_pending_balance_deposits E ;; process_pending_consolidations E) s = (Ok tt, t)
    /\ same_but_credentials (validators s) ws /\ lenN bs = lenN (balances s) /\ sumN bs <= held Electra s.
Proof.
  intros Hs Hq Hst Hd Hc. assert (Hab : active_balance_fits E s). { unfold active_balance_fits. pose proof (active_sum_le s (epoch_of E s)). pows. lia. }
  destruct (C50_pending_deposits E s Hctx Hel Hs Hab Hq Hd) as (k & bs & _ & H1 & L1 & N1 & S1). cbv zeta in *.
  rewrite (run_bind _ _ _ _ _ H1). set (d1 := if k =? _ then _ else _) in *. set (p1 := skipN k _) in *. set (s1 := set_deposit_balance_to_consume d1 _) in *.
  assert (Hq1 : queue_sound s1).
  { destruct Hq as (Q1 & Q2 & Q3). split; [unfold s1; gs; congruence|]. split; [|unfold s1; gs; rewrite S1; exact Q3].
    intros d Hin. change (balances s1) with bs. rewrite L1. apply Q2. change (pending_balance_deposits s1) with p1 in Hin. unfold p1 in Hin. rewrite <- (firstN_skipN k (pending_balance_deposits s)). apply in_or_app. right; exact Hin. }
  destruct (consolidations_run E Hctx s1 Hq1 Hc) as (j & _ & H2 & F2). rewrite H2. cbv zeta in *.
  destruct F2 as (_ & F2 & F3 & F4 & F5 & _).
  destruct (qp_consolidated (firstN j (pending_consolidations s1)) s1) as (p & b & ws & Hf). rewrite Hf in *. clear Hf H2.
  exists (skipN j (pending_consolidations s1)), d1, p, b, ws. split; [unfold s1; clear; f_equal; destruct s; reflexivity|].
  split; [split; [exact F2|exact F4]|]. gsh F3. unfold total_stake in F5. gsh F5. split; [rewrite F3; exact L1|].
  unfold held. unfold s1 in F5. gsh F5. lia.
Qed.

(** fields the epoch does not touch *)
Record quiet (s t : BeaconState) : Prop := mkQuiet {
  qt_slot : slot t = slot s; qt_cur : current_sync_committee t = current_sync_committee s; qt_next : next_sync_committee t = next_sync_committee s;
  qt_genesis : genesis_time t = genesis_time s; qt_nwv : next_withdrawal_validator_index t = next_withdrawal_validator_index s;
  qt_nwi : next_withdrawal_index t = next_withdrawal_index s; qt_di : eth1_deposit_index t = eth1_deposit_index s; qt_e1 : eth1_data t = eth1_data s;
  qt_ppw : pending_partial_withdrawals t = pending_partial_withdrawals s; qt_ece : earliest_consolidation_epoch t = earliest_consolidation_epoch s;
  qt_cbc : consolidation_balance_to_consume t = consolidation_balance_to_consume s }.
Lemma quiet_trans a b c : quiet a b -> quiet b c -> quiet a c.
Proof. intros [] []. constructor; congruence. Qed.
(** what block processing needs of the state [t] an electra epoch leaves behind, when it started from [s] *)
Record after_e (s t : BeaconState) : Prop := mkAfterE {
  ae_quiet : quiet s t; ae_shape : state_shape E t; ae_keys : map v_public_key (validators t) = map v_public_key (validators s);
  ae_aligned : registry_aligned Electra t;
  ae_eff : forall v, In v (validators t) -> v_effective_balance v <= MAX_EFFECTIVE_BALANCE_ELECTRA E;
  ae_stake : registered_stake t < 3 * 2 ^ 55;
  ae_bal : forall b, In b (balances t) -> b < 2 ^ 60;
  ae_slash : forall x, In x (slashings t) -> x < 2 ^ 60;
  ae_exits : exits_below t (2 ^ 61);
  ae_queued : forall v, In v (validators t) -> v_activation_epoch v <> FAR_FUTURE_EPOCH -> v_activation_eligibility_epoch v <= v_activation_epoch v;
  ae_votes : eth1_data_votes t = eth1_data_votes s \/ eth1_data_votes t = [];
  ae_exitq : earliest_exit_epoch t < 2 ^ 60 /\ exit_balance_to_consume t < 2 ^ 60 }.

Lemma next_effective_le v b : next_effective E Electra v b <= b + EFFECTIVE_BALANCE_INCREMENT E.
Proof.
  unfold next_effective, left_band, rounded_down. assert (Hi : EFFECTIVE_BALANCE_INCREMENT E = 1000000000) by apply Hm. assert (Hq : 1 <= HYSTERESIS_QUOTIENT E) by (unfold ctx_sane_epoch in Hep; lia). unfold narrow_band in Hnb.
  assert (Hh : EFFECTIVE_BALANCE_INCREMENT E / HYSTERESIS_QUOTIENT E * HYSTERESIS_DOWNWARD_MULTIPLIER E <= EFFECTIVE_BALANCE_INCREMENT E).
  { eapply N.le_trans; [apply N.mul_le_mono_l; exact Hnb|]. rewrite N.mul_comm. apply N.mul_div_le. lia. }
  set (h := _ / HYSTERESIS_QUOTIENT E) in *. set (hd := h * HYSTERESIS_DOWNWARD_MULTIPLIER E) in *. set (hu := h * HYSTERESIS_UPWARD_MULTIPLIER E) in *. clearbody hd hu. clear h.
  destruct (N.ltb_spec (b + hd) (v_effective_balance v)) as [H1|H1]; cbn [orb].
  - pose proof (N.mul_div_le b (EFFECTIVE_BALANCE_INCREMENT E) ltac:(lia)). rewrite N.mul_comm in H. set (x := _ / _ * _) in *. clearbody x. lia.
  - destruct (_ <? b); [|lia]. pose proof (N.mul_div_le b (EFFECTIVE_BALANCE_INCREMENT E) ltac:(lia)). rewrite N.mul_comm in H. set (x := _ / _ * _) in *. clearbody x. lia.
Qed.
Lemma next_effective_cap v b : v_effective_balance v <= MAX_EFFECTIVE_BALANCE_ELECTRA E -> next_effective E Electra v b <= MAX_EFFECTIVE_BALANCE_ELECTRA E.
Proof.
  intros H. unfold next_effective, balance_cap. destruct Hel as (_ & _ & _ & Hc). destruct (left_band _ _ _); [|exact H]. destruct (kind_is 2 v); lia.
Qed.
Lemma stake_le_balances : forall vs bs, lenN vs = lenN bs -> (forall i v b, nthN vs i = Some v -> nthN bs i = Some b -> v_effective_balance v <= b + EFFECTIVE_BALANCE_INCREMENT E) ->
  sumN (map v_effective_balance vs) <= sumN bs + lenN vs * EFFECTIVE_BALANCE_INCREMENT E.
Proof.
  induction vs as [|v vs IH]; intros bs Hl H; [cbn; lia|]. destruct bs as [|b bs]; [rewrite lenN_cons in Hl; change (lenN (@nil N)) with 0 in Hl; lia|].
  rewrite !lenN_cons in *. cbn [map]. rewrite !sumN_cons. pose proof (H 0 v b eq_refl eq_refl) as H0.
  assert (H1 : sumN (map v_effective_balance vs) <= sumN bs + lenN vs * EFFECTIVE_BALANCE_INCREMENT E).
  { apply IH; [lia|]. intros i w c Hw Hc. apply (H (i + 1) w c); rewrite nthN_cons; destruct (N.eqb_spec (i + 1) 0); try lia; replace (i + 1 - 1) with i by lia; assumption. }
  lia.
Qed.
Lemma qr_start s : slot_small s -> exits_below s (2 ^ 59) -> earliest_exit_epoch s < 2 ^ 59 -> exit_balance_to_consume s < 2 ^ 60 -> registered_stake s < 2 ^ 57 ->
  qr (2 ^ 60 - 1) (2 ^ 60 - 1) s.
Proof.
  intros Hs Hx Hq Hb Hst. pose proof (epoch_small E Hctx s Hs) as He. split; [unfold active_balance_fits; pose proof (active_sum_le s (epoch_of E s)); pows; lia|].
  assert (Hle : staying (validators s) <= registered_stake s).
  { unfold staying, registered_stake. generalize (validators s). induction l as [|v l IH]; [cbn; lia|]. cbn [filter map]. rewrite sumN_cons. destruct (v_exit_epoch v =? _); cbn [map]; rewrite ?sumN_cons; lia. }
  split; [|split; [|split]].
  - unfold exit_queue_start, earliest_exit. change (2 ^ 59) with 576460752303423488 in *. change (2 ^ 57) with 144115188075855872 in *. ctxs Hctx. pows. lia.
  - intros v Hv Hn. specialize (Hx v Hv Hn). change (2 ^ 59) with 576460752303423488 in *. pows. lia.
  - pows. lia.
  - pose proof (exit_churn_bounds E Hctx Hel s). pows. lia.
Qed.

(** ** the last steps *)
Record before_end (s : BeaconState) : Prop := mkBeforeEnd {
  be_shape : state_shape E s; be_slot : slot_small s; be_aligned : registry_aligned Electra s;
  be_eff : forall v, In v (validators s) -> v_effective_balance v <= MAX_EFFECTIVE_BALANCE_ELECTRA E;
  be_sum : sumN (balances s) + lenN (validators s) * EFFECTIVE_BALANCE_INCREMENT E < 3 * 2 ^ 55;
  be_slash : forall x, In x (slashings s) -> x < 2 ^ 60;
  be_exits : exits_below s (2 ^ 61);
  be_queued : forall v, In v (validators s) -> v_activation_epoch v <> FAR_FUTURE_EPOCH -> v_activation_eligibility_epoch v <= v_activation_epoch v;
  be_exitq : earliest_exit_epoch s < 2 ^ 60 /\ exit_balance_to_consume s < 2 ^ 60 }.
Lemma ae_summaries s t z : after_e s t -> after_e s (set_historical_summaries z t).
Proof. intros [[]]. constructor; try assumption. constructor; assumption. Qed.
Lemma ae_hroots s t z : after_e s t -> after_e s (set_historical_roots z t).
Proof. intros [[]]. constructor; try assumption. constructor; assumption. Qed.
Lemma ae_participation s t : after_e s t ->
  after_e s (set_current_epoch_participation (repeatN 0 (lenN (validators t))) (set_previous_epoch_participation (current_epoch_participation t) t)).
Proof.
  intros [[]]. constructor; try assumption; [constructor; assumption|]. destruct ae_aligned0 as [H1 H2]. destruct (H2 ltac:(discriminate)) as (A & B & C). split; [exact H1|]. intros _. gs. rewrite lenN_repeatN. auto.
Qed.
Lemma ae_core s ws sl rm : let t := set_randao_mixes rm (set_slashings sl (set_validators ws s)) in
  before_end s -> state_shape E t -> lenN ws = lenN (validators s) -> map v_public_key ws = map v_public_key (validators s) -> (forall v, In v ws -> v_effective_balance v <= MAX_EFFECTIVE_BALANCE_ELECTRA E) ->
  sumN (map v_effective_balance ws) < 3 * 2 ^ 55 ->
  (forall x, In x sl -> x < 2 ^ 60) -> (forall v, In v ws -> v_exit_epoch v <> FAR_FUTURE_EPOCH -> v_exit_epoch v < 2 ^ 61) ->
  (forall v, In v ws -> v_activation_epoch v <> FAR_FUTURE_EPOCH -> v_activation_eligibility_epoch v <= v_activation_epoch v) -> after_e s t.
Proof.
  intros t []. intros. assert (Hal : registry_aligned Electra t). { destruct be_aligned0 as [A B]. specialize (B ltac:(discriminate)). split; [|intros _]; unfold t; gs; rewrite H0; assumption. }
  assert (Hb : forall b, In b (balances s) -> b < 2 ^ 60). { intros b Hb. apply sumN_In in Hb. change (2 ^ 55) with 36028797018963968 in *. set (z := lenN _ * _) in *. clearbody z. pows. lia. }
  constructor; unfold exits_below, registered_stake; [constructor; reflexivity|assumption|assumption|assumption|..]; unfold t; gs; first [assumption|left; reflexivity].
Qed.
Lemma end_electra s : before_end s -> exists t, after_e s t /\ epoch_end E Electra s = process_sync_committee_updates E t.
Proof.
  intros Hbe. pose proof Hbe as [Hsh Hs Hal Heff Hsum Hsl Hx Hq Hxq].
  assert (Hl : lenN (balances s) = lenN (validators s)) by apply Hal.
  assert (Heb : effective_bounded s). { intros v Hv. specialize (Heff v Hv). assert (MAX_EFFECTIVE_BALANCE_ELECTRA E <= 2048 * 1000000000) by apply Hm. pows. lia. }
  assert (Hb : forall b, In b (balances s) -> b < 2 ^ 62). { intros b Hb. apply sumN_In in Hb. change (2 ^ 55) with 36028797018963968 in *. set (z := lenN _ * _) in *. clearbody z. pows. lia. }
  destruct (C29_update E Electra s Hctx Hep Hl Heb Hb) as (ws & H5 & L5 & N5).
  unfold epoch_end. rewrite (run_bind _ _ _ _ _ H5). set (s4 := set_validators ws s).
  assert (Hsh4 : state_shape E s4) by (unfold state_shape in *; unfold s4; gs; rewrite L5; exact Hsh).
  rewrite (run_bind _ _ _ _ _ (slashings_reset_run E Hctx s4 Hs Hsh4)). set (sl := updN (slashings s4) _ 0). set (s5 := set_slashings sl s4).
  assert (Hsh5 : state_shape E s5) by (unfold state_shape in *; unfold s5, sl; gs; rewrite lenN_updN; exact Hsh4).
  destruct (randao_reset_run E Hctx s5 Hs Hsh5) as (m & _ & H6). rewrite (run_bind _ _ _ _ _ H6). set (s6 := set_randao_mixes _ s5).
  assert (Hsh6 : state_shape E s6) by (unfold state_shape in *; unfold s6; gs; rewrite lenN_updN; exact Hsh5).
  destruct (historical_ok E Hctx Hep Hhash Electra s6 Hs) as (s7 & H7 & D7). rewrite (run_bind _ _ _ _ _ H7).
  assert (W : forall i w, nthN ws i = Some w -> exists v b, nthN (validators s) i = Some v /\ nthN (balances s) i = Some b /\ w = set_v_effective_balance (next_effective E Electra v b) v).
  { intros i w Hw. assert (Hi : i < lenN (validators s)) by (rewrite <- L5; exact (nthN_some _ _ _ Hw)). destruct (nthN_lt _ _ Hi) as [v Hv].
    rewrite <- Hl in Hi. destruct (nthN_lt _ _ Hi) as [b Hb']. exists v, b. split; [exact Hv|]. split; [exact Hb'|]. rewrite (N5 i v b Hv Hb') in Hw. congruence. }
  assert (Wi : forall P : Validator -> Prop, (forall v b, In v (validators s) -> P (set_v_effective_balance (next_effective E Electra v b) v)) -> forall w, In w ws -> P w).
  { intros P HP w Hw. apply In_nthN in Hw as [i Hi]. destruct (W i w Hi) as (v & b & Hv & _ & ->). apply HP. eapply nthN_In; eauto. }
  assert (Hws : map v_public_key ws = map v_public_key (validators s)).
  { symmetry. apply map_ext_nth; [congruence|]. intros i w Hw. destruct (W i w Hw) as (v & b & Hv & _ & ->). exists v. split; [exact Hv|reflexivity]. }
  assert (Hwe : forall w, In w ws -> v_effective_balance w <= MAX_EFFECTIVE_BALANCE_ELECTRA E).
  { refine (Wi (fun w => v_effective_balance w <= MAX_EFFECTIVE_BALANCE_ELECTRA E) _). intros v b Hv. gs. apply next_effective_cap. exact (Heff v Hv). }
  assert (Hwx : forall w, In w ws -> v_exit_epoch w <> FAR_FUTURE_EPOCH -> v_exit_epoch w < 2 ^ 61) by (refine (Wi (fun w => v_exit_epoch w <> FAR_FUTURE_EPOCH -> v_exit_epoch w < 2 ^ 61) _); intros v b Hv; exact (Hx v Hv)).
  assert (Hwq : forall w, In w ws -> v_activation_epoch w <> FAR_FUTURE_EPOCH -> v_activation_eligibility_epoch w <= v_activation_epoch w) by (refine (Wi (fun w => v_activation_epoch w <> FAR_FUTURE_EPOCH -> v_activation_eligibility_epoch w <= v_activation_epoch w) _); intros v b Hv; exact (Hq v Hv)).
  assert (Hws' : sumN (map v_effective_balance ws) < 3 * 2 ^ 55).
  { eapply N.le_lt_trans; [apply (stake_le_balances ws (balances s)); [congruence|]|rewrite L5; exact Hsum].
    intros i w b Hw Hb'. destruct (W i w Hw) as (v & b' & _ & Hb'' & ->). rewrite Hb' in Hb''. injection Hb'' as <-. gs. apply next_effective_le. }
  assert (Hsl' : forall x, In x sl -> x < 2 ^ 60) by (intros z Hz; apply In_updN in Hz as [->|Hz]; [pows; lia|exact (Hsl z Hz)]).
  assert (A6 : after_e s s6) by (unfold s6; apply ae_core; assumption).
  assert (A7 : after_e s s7). { destruct D7 as [->|[[z ->]|[z ->]]]; [exact A6|apply ae_summaries; exact A6|apply ae_hroots; exact A6]. }
  exists (set_current_epoch_participation (repeatN 0 (lenN (validators s7))) (set_previous_epoch_participation (current_epoch_participation s7) s7)).
  split; [apply ae_participation; exact A7|reflexivity].
Qed.

(** ** from the registry to the queues *)
Lemma sbc_all vs ws (P : Validator -> Prop) : same_but_credentials vs ws -> (forall v wc, In v vs -> P (set_v_withdrawal_credentials wc v)) -> forall w, In w ws -> P w.
Proof.
  intros [L N] H. refine (all_nth P ws vs L _). intros i v w Hv Hw. destruct (N i v Hv) as (wc & Hn). rewrite Hw in Hn. injection Hn as ->. apply H. eapply nthN_In; eauto.
Qed.
Lemma sbc_keys vs ws : same_but_credentials vs ws -> map v_public_key ws = map v_public_key vs.
Proof. intros [L N]. apply map_ext_nth; [exact L|]. intros i v Hv. destruct (N i v Hv) as (wc & Hn). eexists. split; [exact Hn|reflexivity]. Qed.
Lemma be_core s vs x y ev c d p bs ws : let t := set_pending_consolidations c (set_deposit_balance_to_consume d (set_pending_balance_deposits p (set_balances bs (set_validators ws
    (set_eth1_data_votes ev (set_validators vs (set_earliest_exit_epoch x (set_exit_balance_to_consume y s)))))))) in
  state_shape E s -> slot_small s -> registry_aligned Electra s -> lenN ws = lenN (validators s) -> lenN bs = lenN (balances s) ->
  (forall v, In v ws -> v_effective_balance v <= MAX_EFFECTIVE_BALANCE_ELECTRA E) -> sumN bs + lenN (validators s) * EFFECTIVE_BALANCE_INCREMENT E < 3 * 2 ^ 55 ->
  (forall x, In x (slashings s) -> x < 2 ^ 60) -> (forall v, In v ws -> v_exit_epoch v <> FAR_FUTURE_EPOCH -> v_exit_epoch v < 2 ^ 61) ->
  (forall v, In v ws -> v_activation_epoch v <> FAR_FUTURE_EPOCH -> v_activation_eligibility_epoch v <= v_activation_epoch v) -> x < 2 ^ 60 -> y < 2 ^ 60 ->
  before_end t /\ quiet s t /\ eth1_data_votes t = ev /\ validators t = ws.
Proof.
  intros t Hsh Hs [Ha1 Ha2] L1 L2 He Hsum Hsl Hx Hq H1 H2. specialize (Ha2 ltac:(discriminate)).
  split; [|split; [constructor; reflexivity|split; reflexivity]]. constructor; unfold exits_below.
  - destruct Hsh as (S1 & S2 & S3 & S4 & S5 & S6). split; [exact S1|]. split; [exact S2|]. split; [exact S3|]. split; [exact S4|]. split; [exact S5|]. change (lenN ws <= 2 ^ 40). rewrite L1. exact S6.
  - exact Hs.
  - split; [change (lenN bs = lenN ws); congruence|intros _]. destruct Ha2 as (A & B & C). rewrite <- L1 in A, B, C. split; [exact A|]. split; [exact B|exact C].
  - exact He.
  - change (sumN bs + lenN ws * EFFECTIVE_BALANCE_INCREMENT E < 3 * 2 ^ 55). rewrite L1. exact Hsum.
  - exact Hsl.
  - exact Hx.
  - exact Hq.
  - split; [exact H1|exact H2].
Qed.
Lemma front_electra s : mid E Electra s -> registry_aligned Electra s -> qr (2 ^ 60 - 1) (2 ^ 60 - 1) s -> (forall x, In x (slashings s) -> x < 2 ^ 60) ->
  held Electra s + lenN (validators s) * EFFECTIVE_BALANCE_INCREMENT E < 3 * 2 ^ 55 ->
  (forall v, In v (validators s) -> v_activation_epoch v <> FAR_FUTURE_EPOCH -> v_activation_eligibility_epoch v <= v_activation_epoch v) ->
  exists t, epoch_rest E Electra s = epoch_end E Electra t /\ before_end t /\ quiet s t /\ (eth1_data_votes t = eth1_data_votes s \/ eth1_data_votes t = [])
    /\ map v_public_key (validators t) = map v_public_key (validators s).
Proof.
  intros [] Hal Hqr Hsl Hheld Hq. pose proof (epoch_small E Hctx s md_slot) as Hes.
  destruct (C11_registry E Electra s Hctx Hel md_slot md_shape md_room ltac:(unfold prev_epoch_of in md_fin; lia)) as (s1 & q & H1 & Q & L1 & N1 & x & y & D1 & _).
  destruct (registry_exits_electra (2 ^ 60 - 1) (2 ^ 60 - 1) s s1 ltac:(pows; lia) ltac:(pows; lia) md_slot Hqr H1) as (X1 & X2 & X3). unfold epoch_rest. rewrite (run_bind _ _ _ _ _ H1).
  assert (Hmap : map v_effective_balance (validators s1) = map v_effective_balance (validators s)).
  { apply stake_ext; [exact L1|]. intros i v Hv. destruct (N1 i v Hv) as (v' & Hv' & (_ & _ & He & _) & _). eauto. }
  assert (Hk1 : map v_public_key (validators s1) = map v_public_key (validators s)).
  { apply map_ext_nth; [exact L1|]. intros i v Hv. destruct (N1 i v Hv) as (v' & Hv' & (He & _) & _). eauto. }
  assert (Hq1 : forall v, In v (validators s1) -> v_activation_epoch v <> FAR_FUTURE_EPOCH -> v_activation_eligibility_epoch v <= v_activation_epoch v).
  { refine (all_nth (fun v => v_activation_epoch v <> FAR_FUTURE_EPOCH -> v_activation_eligibility_epoch v <= v_activation_epoch v) _ _ L1 _). intros i v v' Hv Hv' Hne. destruct (N1 i v Hv) as (w & Hw & _ & R1 & R2 & R3 & _). rewrite Hv' in Hw. injection Hw as <-.
    rewrite R1. destruct (in_dec N.eq_dec i (capped (activation_cap E Electra s) q)) as [Hi|Hi].
    - rewrite (R2 Hi). apply capped_sub in Hi. apply Q in Hi as (w & Hw & Hr). rewrite Hv in Hw. injection Hw as <-. unfold activation_ready in Hr. apply andb_true_iff in Hr as [Hr _]. apply N.leb_le in Hr.
      unfold earliest_exit. unfold prev_epoch_of in md_fin. destruct (enters_queue E Electra v); lia.
    - rewrite (R3 Hi) in *. specialize (Hq v (nthN_In _ _ _ Hv) Hne). destruct (enters_queue E Electra v) eqn:Hen; [|exact Hq].
      unfold enters_queue in Hen. apply andb_true_iff in Hen as [Hen _]. apply N.eqb_eq in Hen. rewrite Hen in Hq. unfold FAR_FUTURE_EPOCH in *. pows. lia. }
  set (vs := validators s1) in *. assert (X1' : forall v, In v vs -> v_exit_epoch v <> FAR_FUTURE_EPOCH -> v_exit_epoch v < 2 ^ 61) by (intros v Hv Hn; specialize (X1 v Hv Hn); change (2 ^ 61) with 2305843009213693952; pows; lia).
  assert (Xx : x = earliest_exit_epoch s1 /\ y = exit_balance_to_consume s1) by (rewrite D1; split; reflexivity). destruct Xx as [Ex Ey]. rewrite <- Ex in X2. rewrite <- Ey in X3.
  clear X1 N1 H1 Ex Ey. clearbody vs. subst s1. set (s1 := set_validators vs _) in *.
  assert (He1 : forall v, In v vs -> v_effective_balance v <= cap E Electra) by (apply (in_effective (fun x => x <= cap E Electra) vs (validators s) Hmap md_eff)).
  assert (Hst1 : registered_stake s1 < 2 ^ 57) by (unfold registered_stake, s1; gs; rewrite Hmap; exact md_stake).
  assert (Heb1 : effective_bounded s1). { intros v Hv. pose proof (He1 v Hv). pose proof (cap_le E Hm Electra). pows. lia. }
  assert (Hab1 : active_balance_fits E s1). { unfold active_balance_fits. pose proof (active_sum_le s1 (epoch_of E s1)). pows. lia. }
  destruct (C30_correlation_penalty E Electra s1 Hctx md_slot ltac:(unfold s1; gs; congruence) Heb1 Hab1 (penalties_fit_scale E Hm Electra s1 He1 Hst1 md_slash)) as (bs & H2 & L2 & N2).
  rewrite (run_bind _ _ _ _ _ H2). change (balances s1) with (balances s) in *. change (validators s1) with vs in N2.
  assert (Hle : forall i b b', nthN (balances s) i = Some b -> nthN bs i = Some b' -> b' <= b).
  { intros i b b' Hb Hb'. assert (Hi : i < lenN vs) by (rewrite L1, <- md_len; exact (nthN_some _ _ _ Hb)). destruct (nthN_lt _ _ Hi) as [v Hv].
    rewrite (N2 i v b Hv Hb) in Hb'. injection Hb' as <-. destruct (halfway _ _ _); lia. }
  assert (Hsum : sumN bs <= sumN (balances s)) by (apply sumN_le_nth; [exact L2|exact Hle]).
  clear H2 N2. set (s2 := set_balances bs s1) in *.
  rewrite (run_bind _ _ _ _ _ (eth1_reset_run E Hctx s2 Hep md_slot)). set (s3 := if epoch_ends_period _ _ _ then _ else _).
  assert (D3 : exists ev, s3 = set_eth1_data_votes ev s2 /\ (ev = eth1_data_votes s \/ ev = [])).
  { unfold s3. destruct (epoch_ends_period _ _ _); [eauto|]. exists (eth1_data_votes s2). split; [unfold s2, s1; destruct s; reflexivity|left; reflexivity]. }
  clearbody s3. destruct D3 as (ev & -> & Hev). set (s3 := set_eth1_data_votes ev s2) in *.
  destruct (md_q eq_refl) as (Q1 & Q2 & Q3).
  assert (Hqs : queue_sound s3).
  { unfold queue_sound. change (validators s3) with vs. change (balances s3) with bs. change (pending_balance_deposits s3) with (pending_balance_deposits s).
    split; [congruence|]. split; [intros d Hd; rewrite L2; auto|]. unfold held in md_held. pows. lia. }
  destruct (queues_more s3 md_slot Hqs Hst1 Q2) as (c & d & p & b4 & ws & H4 & W4 & L4 & S4).
  { unfold consolidations_sound. change (validators s3) with vs. rewrite L1. exact Q3. }
  cbv zeta in H4. set (s4 := set_pending_consolidations c _) in *.
  assert (H4' : swhen (fork_le Electra Electra) (process_pending_balance_deposits E ;; process_pending_consolidations E) s3 = (Ok tt, s4)) by exact H4.
  rewrite (run_bind _ _ _ _ _ H4'). clear H4 H4'. exists s4. split; [reflexivity|].
  change (validators s3) with vs in W4. change (balances s3) with bs in L4.
  assert (Lw : lenN ws = lenN (validators s)) by (destruct W4; congruence).
  assert (Hws : forall v, In v ws -> v_effective_balance v <= MAX_EFFECTIVE_BALANCE_ELECTRA E) by (refine (sbc_all vs ws (fun v => v_effective_balance v <= MAX_EFFECTIVE_BALANCE_ELECTRA E) W4 _); intros v wc Hv; exact (He1 v Hv)).
  assert (Hwx : forall v, In v ws -> v_exit_epoch v <> FAR_FUTURE_EPOCH -> v_exit_epoch v < 2 ^ 61) by (refine (sbc_all vs ws (fun v => v_exit_epoch v <> FAR_FUTURE_EPOCH -> v_exit_epoch v < 2 ^ 61) W4 _); intros v wc Hv; exact (X1' v Hv)).
  assert (Hwq : forall v, In v ws -> v_activation_epoch v <> FAR_FUTURE_EPOCH -> v_activation_eligibility_epoch v <= v_activation_epoch v) by (refine (sbc_all vs ws (fun v => v_activation_epoch v <> FAR_FUTURE_EPOCH -> v_activation_eligibility_epoch v <= v_activation_epoch v) W4 _); intros v wc Hv; exact (Hq1 v Hv)).
  assert (Hs4 : sumN b4 + lenN (validators s) * EFFECTIVE_BALANCE_INCREMENT E < 3 * 2 ^ 55).
  { eapply N.le_lt_trans; [|exact Hheld]. apply N.add_le_mono_r. eapply N.le_trans; [exact S4|]. unfold held. change (balances s3) with bs. change (pending_balance_deposits s3) with (pending_balance_deposits s). lia. }
  assert (Heq : s4 = set_pending_consolidations c (set_deposit_balance_to_consume d (set_pending_balance_deposits p (set_balances b4 (set_validators ws
    (set_eth1_data_votes ev (set_validators vs (set_earliest_exit_epoch x (set_exit_balance_to_consume y s))))))))) by (unfold s4, s3, s2, s1; clear; destruct s; reflexivity).
  destruct (be_core s vs x y ev c d p b4 ws md_shape md_slot Hal Lw ltac:(congruence) Hws Hs4 Hsl Hwx Hwq ltac:(pows; lia) ltac:(pows; lia)) as (B1 & B2 & B3 & B4).
  clearbody s4. subst s4. split; [exact B1|]. split; [exact B2|]. split; [rewrite B3; exact Hev|]. rewrite B4, (sbc_keys _ _ W4). exact Hk1.
Qed.
Lemma rest_electra s : mid E Electra s -> registry_aligned Electra s -> qr (2 ^ 60 - 1) (2 ^ 60 - 1) s -> (forall x, In x (slashings s) -> x < 2 ^ 60) ->
  held Electra s + lenN (validators s) * EFFECTIVE_BALANCE_INCREMENT E < 3 * 2 ^ 55 ->
  (forall v, In v (validators s) -> v_activation_epoch v <> FAR_FUTURE_EPOCH -> v_activation_eligibility_epoch v <= v_activation_epoch v) ->
  exists t, after_e s t /\ epoch_rest E Electra s = process_sync_committee_updates E t.
Proof.
  intros. destruct (front_electra s) as (u & U1 & U2 & U3 & U4 & U5); try assumption. destruct (end_electra u U2) as (t & [] & T2). exists t. split; [|congruence].
  constructor; try assumption; [eapply quiet_trans; eassumption|congruence|]. destruct ae_votes0 as [-> | ->]; [exact U4|auto].
Qed.

(** ** the whole epoch *)
Hypothesis Hatt : ctx_sane_att E.
Hypothesis Hwf : hash_wf (hash E).
Lemma ae_frame s t x : t = s \/ only_checkpoints E s t -> after_e t x -> after_e s x.
Proof. intros [->|(a & b & c & d & -> & _)] H; [exact H|]. destruct H as [[]]. constructor; try assumption. constructor; assumption. Qed.
Lemma epoch_more_electra s : within_bounds E Electra s -> block_bounds E Electra s -> queues_sound s -> next_epoch_electra E s -> 0 < slot s mod SLOTS_PER_EPOCH E ->
  exists t, after_e s t /\ process_epoch E Electra s = process_sync_committee_updates E t.
Proof.
  intros W B HQ [NX1 NX2 NX3 _] Hpos. destruct HQ as (_ & HQ & _).
  assert (Hsl : forall x, In x (slashings s) -> x < 2 ^ 60) by apply B.
  assert (Hq : forall v, In v (validators s) -> v_activation_epoch v <> FAR_FUTURE_EPOCH -> v_activation_eligibility_epoch v <= v_activation_epoch v) by apply B.
  assert (Hf0 : Electra <> Phase0) by discriminate.
  assert (Hv : votes_recorded E Electra s). { destruct W. destruct wb_aligned as [_ H]. destruct (H Hf0) as (A & A' & _). split; assumption. }
  destruct (just_run E Hctx Hatt Hwf Electra s W Hpos Hv) as (s1 & H1 & D1 & F1). destruct (just_pre E Electra s s1 W D1 F1) as (P1 & S1 & V1 & I1 & B1 & _).
  rewrite epoch_rest_eq, (run_bind _ _ _ _ _ H1).
  assert (E1 : prev_epoch_of E s1 = prev_epoch_of E s) by (unfold prev_epoch_of, epoch_of; rewrite S1; reflexivity).
  destruct (inactivity_ok E Hctx Hm s1) as (sc & H2 & L2 & X2).
  { destruct P1. destruct pr_aligned as [A A']. split; [exact A|]. intros _. exact (A' Hf0). } { rewrite E1. exact F1. } { rewrite I1. apply W. }
  assert (H2' : swhen (fork_le Altair Electra) (process_inactivity_updates E) s1 = (Ok tt, set_inactivity_scores sc s1)) by exact H2.
  rewrite (run_bind _ _ _ _ _ H2'). set (s2 := set_inactivity_scores sc s1) in *.
  assert (P2 : pre_rewards E Electra s2).
  { destruct P1. constructor; try assumption. destruct pr_aligned as [A A']. split; [exact A|]. intros Hf'. destruct (A' Hf') as (B2 & B3 & B4). unfold s2. gs. repeat split; congruence. }
  destruct (rewards_ok E Hctx Hm Hatt Electra s2 Hf0 P2 X2) as (bs & H3 & L3 & S3). rewrite (run_bind _ _ _ _ _ H3).
  assert (Fr : slashings s1 = slashings s /\ pending_balance_deposits s1 = pending_balance_deposits s /\ earliest_exit_epoch s1 = earliest_exit_epoch s /\ exit_balance_to_consume s1 = exit_balance_to_consume s).
  { destruct D1 as [->|(a & b & c & d & -> & _)]; auto. }
  destruct Fr as (Fr1 & Fr2 & Fr3 & Fr4).
  destruct (rest_electra (set_balances bs s2) (pre_mid E Electra s2 bs P2 L3 S3)) as (t & T1 & T2).
  - destruct P2. destruct pr_aligned as [A A']. split; [gs; congruence|]. exact A'.
  - apply qr_start.
    + destruct P2. assumption.
    + unfold exits_below in *. change (validators (set_balances bs s2)) with (validators s1). rewrite V1. exact NX2.
    + change (earliest_exit_epoch s1 < 2 ^ 59). rewrite Fr3. exact NX3.
    + change (exit_balance_to_consume s1 < 2 ^ 60). rewrite Fr4. exact HQ.
    + destruct P2. assumption.
  - change (slashings (set_balances bs s2)) with (slashings s1). rewrite Fr1. exact Hsl.
  - unfold held in *. change (balances (set_balances bs s2)) with bs. change (pending_balance_deposits (set_balances bs s2)) with (pending_balance_deposits s1). change (validators (set_balances bs s2)) with (validators s1).
    change (balances s2) with (balances s1) in S3. unfold registered_stake in *. change (validators s2) with (validators s1) in S3. rewrite Fr2, V1. rewrite V1, B1 in S3. clear - S3 NX1.
    set (x := sumN (map _ _)) in *. set (y := lenN _ * _) in *. clearbody x y. lia.
  - change (validators (set_balances bs s2)) with (validators s1). rewrite V1. exact Hq.
  - exists t. split; [|exact T2]. apply (ae_frame s s1 t D1). destruct T1 as [[]]. constructor; try assumption. constructor; assumption.
Qed.
Lemma ae_bounds s t n c d : block_bounds E Electra s -> queues_sound s -> next_epoch_electra E s -> after_e s t -> n < 2 ^ 56 ->
  (c = current_sync_committee s \/ c = next_sync_committee s) ->
  let u := set_slot n (set_current_sync_committee c (set_next_sync_committee d t)) in block_bounds E Electra u /\ queues_sound u.
Proof.
  intros B HQ NE [[] A1 A2 A3 A4 A5 A6 A7 A8 A9 A10 A11] Hn Hcom u. destruct B as [B1 B2 B3 B4 B5 B6 B7 B8 B9 B10 B11 B12 B13 B14]. destruct NE as [_ _ _ NE4].
  assert (Hlen : lenN (validators t) = lenN (validators s)). { rewrite <- (lenN_map v_public_key (validators t)), A2, lenN_map. reflexivity. }
  split.
  - constructor; try assumption.
    + change (validators u) with (validators t). rewrite Hlen. exact B2.
    + intros Hf0. unfold committee_registered. change (validators u) with (validators t). change (current_sync_committee u) with c. destruct (B11 Hf0) as [C1 C2]. destruct NE4 as [C3 C4].
      destruct Hcom as [-> | ->]; (split; [|assumption]); intros pk Hpk; eapply keys_lookup; try exact A2; auto.
    + change (genesis_time u) with (genesis_time t). rewrite qt_genesis0. exact B12.
    + intros Hc. change (next_withdrawal_validator_index t < lenN (validators t) /\ next_withdrawal_index t < 2 ^ 62). rewrite qt_nwv0, qt_nwi0, Hlen. exact (B13 Hc).
    + change (lenN (eth1_data_votes t) < 2 ^ 60 /\ eth1_deposit_index t < 2 ^ 62 /\ eth1_deposit_index t <= e1_deposit_count (eth1_data t)). rewrite qt_di0, qt_e2. destruct B14 as (E1 & E2 & E3). split; [|auto].
      destruct A10 as [-> | ->]; [exact E1|]. change (lenN (@nil Eth1Data)) with 0. pows. lia.
  - destruct HQ as (_ & _ & Q3 & Q4 & Q5 & Q6). destruct A11 as [X1 X2].
    assert (Hp : forall i, pending_balance_of u i = pending_balance_of s i) by (intros i; unfold pending_balance_of; change (pending_partial_withdrawals u) with (pending_partial_withdrawals t); rewrite qt_ppw0; reflexivity).
    split; [exact X1|]. split; [exact X2|]. split.
    { destruct Q3 as [Q31 Q32]. change (pending_partial_withdrawals u) with (pending_partial_withdrawals t). split; [change (validators u) with (validators t); change (pending_partial_withdrawals u) with (pending_partial_withdrawals t); rewrite qt_ppw0, Hlen; exact Q31|]. intros i. rewrite Hp. apply Q32. }
    change (pending_partial_withdrawals u) with (pending_partial_withdrawals t). change (earliest_consolidation_epoch u) with (earliest_consolidation_epoch t). change (consolidation_balance_to_consume u) with (consolidation_balance_to_consume t).
    rewrite qt_ppw0, qt_ece0, qt_cbc0. auto.
Qed.

Lemma moved_next_electra s t : moved s t -> next_epoch_electra E s -> next_epoch_electra E t.
Proof. intros (br & h & sr & m & -> & H & K) []. constructor; assumption. Qed.

Hypothesis Hrw : roots_wide E.
Hypothesis Hfuel : N.of_nat (fuel E) < 2 ^ 60.

(** the state in which a block of the next epoch is processed *)
Lemma slots_next_electra s target : within_bounds E Electra s -> block_bounds E Electra s -> queues_sound s -> next_epoch_electra E s ->
  active_set s (epoch_of E s + 1) <> [] -> epoch_start_after E s <= target -> target < epoch_start_after E s + SLOTS_PER_EPOCH E -> target < 2 ^ 56 ->
  safe (fun t => t = s) (process_slots E Electra target) (fun _ t => block_bounds E Electra t /\ queues_sound t).
Proof.
  intros W B HQ NE Hact Hlo Hhi Hs t ->. set (e := epoch_start_after E s) in *. assert (Hsp : 2 <= SLOTS_PER_EPOCH E) by apply Hm.
  assert (Hse : slot s < e). { unfold e, epoch_start_after, epoch_of. pose proof (N.div_mod (slot s) (SLOTS_PER_EPOCH E) ltac:(lia)) as D. pose proof (N.mod_lt (slot s) (SLOTS_PER_EPOCH E) ltac:(lia)). set (q := _ / _) in *. clearbody q. nia. }
  rewrite process_slots_loop by lia.
  assert (Hk : exists k, N.to_nat (e - slot s) = S k) by (exists (pred (N.to_nat (e - slot s))); lia). destruct Hk as [k Hk].
  destruct (boundary_moved E Hctx Hm Hhash Electra s k s (moved_refl s) W ltac:(fold e; lia) ltac:(fold e; lia)) as (s1 & M & W1 & Hp & He & Hloop). fold e in Hloop.
  assert (HB1 : block_bounds E Electra s1) by (apply (moved_bounds E Electra s); [exact M|apply W1|exact B]).
  assert (HQ1 : queues_sound s1) by (apply (moved_queues s); assumption).
  assert (HN1 : next_epoch_electra E s1) by (apply (moved_next_electra s); assumption).
  assert (Hact1 : active_set s1 (epoch_of E s1 + 1) <> []) by (rewrite He; destruct M as (br & h & sr & m & -> & _); exact Hact).
  assert (Hend : safe (fun t => t = s) (slots_loop E Electra (S k) e) (fun _ t => slot t = e /\ block_bounds E Electra t /\ queues_sound t)).
  { intros t ->. rewrite Hloop. destruct (epoch_no_panic E Hctx Hm Hel Hep Hhash Hatt Hwf Electra s1 W1 Hp) as [_ Hnp]. specialize (Hnp Hact1 Hfuel).
    destruct (epoch_more_electra s1 W1 HB1 HQ1 HN1 Hp) as (u & A & Hu).
    assert (Hout : forall t, process_epoch E Electra s1 = (Ok tt, t) -> exists c n, t = set_current_sync_committee c (set_next_sync_committee n u) /\ (c = current_sync_committee s1 \/ c = next_sync_committee s1)).
    { intros t Ht. rewrite Hu, (sync_update_run E Hctx Hep u) in Ht by (unfold slot_small; rewrite (qt_slot _ _ (ae_quiet _ _ A)); apply W1).
      destruct (epoch_ends_period _ _ _).
      + destruct (get_next_sync_committee E u) as [c| | |]; try discriminate. injection Ht as <-. exists (next_sync_committee u), c. split; [reflexivity|]. right. apply A.
      + injection Ht as <-. exists (current_sync_committee u), (next_sync_committee u). split; [destruct u; reflexivity|]. left. apply A. }
    destruct (process_epoch E Electra s1) as [[[]| | |] t]; try exact I; [|exfalso; apply Hnp; reflexivity].
    destruct (Hout t eq_refl) as (c & n & -> & Hc). split; [reflexivity|]. apply (ae_bounds s1 u e c n); try assumption; lia. }
  destruct (N.eq_dec target e) as [->|Hne].
  - rewrite Hk. specialize (Hend s eq_refl). destruct (slots_loop E Electra (S k) e s) as [[[]| | |] t]; auto. apply Hend.
  - assert (Hsum : N.to_nat (target - slot s) = (S k + N.to_nat (target - e))%nat) by lia. rewrite Hsum.
    rewrite (loop_split E Hctx Electra e target ltac:(lia) ltac:(pows; lia)) by lia.
    cut (safe (fun t => t = s) (sbind (slots_loop E Electra (S k) e) (fun _ => slots_loop E Electra (N.to_nat (target - e)) target)) (fun _ t => block_bounds E Electra t /\ queues_sound t)); [intros HS; exact (HS s eq_refl)|].
    eapply safe_seq; [exact Hend|]. intros _ t (T1 & T2 & T3).
    assert (Hin : target < epoch_end_of E e).
    { unfold epoch_end_of, e, epoch_start_after. rewrite N.div_mul by lia. unfold e, epoch_start_after in Hhi. lia. }
    pose proof (safe_loop E Hctx Hfuel Electra t target (bb_shape _ _ _ T2) Hs (N.to_nat (target - e)) e ltac:(lia) Hin t (conj (moved_refl t) T1)) as HL.
    destruct (slots_loop E Electra (N.to_nat (target - e)) target t) as [[[]| | |] t']; auto. destruct HL as [M' S'].
    split; [apply (moved_bounds E Electra t); [exact M'|unfold slot_small; rewrite S'; exact Hs|exact T2]|apply (moved_queues t); assumption].
Qed.
End C.
