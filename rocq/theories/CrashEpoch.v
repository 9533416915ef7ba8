(** * Proofs about the state epoch processing leaves behind (proof file; no model definitions) *)
From Verif Require Import Base BaseLemmas Types Ctx Env Helpers HelpersAltair HelpersElectra Block Epoch Transition StLemmas
  SpecCommon SpecShuffle SpecHelpers SpecElectra SpecOps SpecBlock SpecAtt SpecFlow SpecFinality SpecSlots SpecEpoch SpecRegistry SpecQueues SpecPhase0 SpecTotal SpecCrash
  ShuffleProofs HelperProofs HelperProofs2 OpsProofs ElectraProofs SlashProofs AttProofs BlockProofs FlowProofs FinalityProofs EpochProofs RegistryProofs RewardProofs PeriodicProofs QueueProofs SlotProofs Phase0Proofs PropsFinality PropsEpoch PropsPhase0 TotalProofs CrashProofs CrashElectra CrashSlots.

Section C.
Variable E : Env.
Hypothesis Hctx : ctx_sane E.
Hypothesis Hel : ctx_sane_electra E.

(** ** exit epochs after the registry step *)
Definition exits_kept (s t : BeaconState) : Prop := forall B, exits_below s B -> exits_below t B.
Lemma ek_refl s : exits_kept s s. Proof. intros B H. exact H. Qed.
Lemma ek_trans a b c : exits_kept a b -> exits_kept b c -> exits_kept a c. Proof. intros H K B HB. exact (K B (H B HB)). Qed.
Lemma ek_activate i ae : pres exits_kept (mod_validator i (set_v_activation_epoch ae)).
Proof.
  intros s. unfold mod_validator, sbind, rd. destruct (idx (validators s) i) as [v|e| |] eqn:Hv; cbn [snd]; try apply ek_refl. unfold md. cbn [snd].
  apply idx_ok in Hv. intros B H w Hw Hn. gsh Hw. apply In_updN in Hw as [->|Hw]; [apply (H v); [eapply nthN_In; eauto|exact Hn]|exact (H w Hw Hn)].
Qed.
Lemma registry_loop_room f k : forall l t t', NoDup l -> (forall i, In i l -> i < lenN (validators t)) -> slot_small t -> room E f (lenN l + k) t ->
  sfor l (registry_step E f (epoch_of E t)) t = (Ok tt, t') -> room E f k t' /\ slot t' = slot t.
Proof.
  induction l as [|i l IH]; intros t t' Hnd Hin Hs Hr H.
  - cbn [sfor] in H. injection H as <-. split; [|reflexivity]. rewrite N.add_0_l in Hr. exact Hr.
  - inversion Hnd as [|? ? Hx Hnd']; subst. rewrite lenN_cons in Hr. destruct (nthN_lt (validators t) i (Hin i (or_introl eq_refl))) as [v Hv].
    destruct (registry_step_run E Hctx Hel f (lenN l + k) t i v Hs ltac:(replace (lenN l + k + 1) with (lenN l + 1 + k) by lia; exact Hr) Hv) as (t1 & v1 & A1 & A2 & A3 & A4 & A5 & A6 & A7 & A8 & A9).
    destruct (sd_epoch E t t1 A3) as [Hep Hsl]. rewrite sfor_cons, (run_bind _ _ _ _ _ A1) in H. rewrite <- Hep in H.
    destruct (IH t1 t' Hnd') as [B1 B2]; [|unfold slot_small in *; rewrite Hsl; exact Hs|exact A2|exact H|split; [exact B1|congruence]].
    intros j Hj. rewrite A5. apply Hin. right; exact Hj.
Qed.
Lemma registry_exits f s s' : f <> Electra -> slot_small s -> state_shape E s -> exits_below s (2 ^ 60) -> process_registry_updates E f s = (Ok tt, s') -> exits_below s' (2 ^ 61).
Proof.
  intros Hf Hs Hsh Hx H. unfold process_registry_updates in H. rewrite (run_rd _ _ _ (epoch_of E s)) in H by (apply current_epoch_ok; exact Hctx).
  rewrite (run_rd _ _ _ (lenN (validators s))) in H by reflexivity. apply sbind_ok_inv in H as ([] & t & H1 & H).
  assert (Hr : room E f (lenN (rangeN (lenN (validators s))) + 2 ^ 61) s).
  { rewrite (room_not_electra _ _ _ _ Hf), lenN_rangeN. exists (2 ^ 60). split; [exact Hx|]. pose proof (epoch_small E Hctx s Hs). destruct Hsh as (_&_&_&_&_&Hv). unfold earliest_exit.
    change (2 ^ 61) with 2305843009213693952. ctxs Hctx. pows. lia. }
  destruct (registry_loop_room f _ _ s t (NoDup_rangeN _) (fun i Hi => proj1 (In_rangeN _ _) Hi) Hs Hr H1) as [R _].
  rewrite (room_not_electra _ _ _ _ Hf) in R. destruct R as (B & R1 & _ & R2).
  assert (Ht : exits_below t (2 ^ 61)). { intros v Hv Hn. specialize (R1 v Hv Hn). change (2 ^ 61) with 2305843009213693952 in *. pows. lia. }
  match type of H with ?m t = _ => assert (P : pres exits_kept m) end.
  { destruct f; try contradiction; (apply (pres_bind _ ek_trans); [apply (pres_rd _ ek_refl)|]; intros q; apply (pres_bind _ ek_trans); [apply (pres_lift _ ek_refl)|]; intros ae;
      apply (pres_bind _ ek_trans); [apply (pres_rd _ ek_refl)|]; intros lim; apply (pres_for _ ek_refl ek_trans); intros i; apply ek_activate). }
  specialize (P t). rewrite H in P. cbn [snd] in P. exact (P _ Ht).
Qed.

Hypothesis Hm : mainnet_scale E.
Hypothesis Hep : ctx_sane_epoch E.
Hypothesis Hhash : hashing_total E.

(** what block processing needs of the state [t] an epoch leaves behind, when it started from [s] *)
Record after (f : Fork) (s t : BeaconState) : Prop := mkAfter {
  af_shape : state_shape E t; af_slot : slot t = slot s; af_keys : map v_public_key (validators t) = map v_public_key (validators s);
  af_aligned : registry_aligned f t;
  af_eff : forall v, In v (validators t) -> v_effective_balance v <= MAX_EFFECTIVE_BALANCE E;
  af_bal : forall b, In b (balances t) -> b < 2 ^ 60;
  af_slash : forall x, In x (slashings t) -> x < 2 ^ 60;
  af_exits : exits_below t (2 ^ 61);
  af_queued : forall v, In v (validators t) -> v_activation_epoch v <> FAR_FUTURE_EPOCH -> v_activation_eligibility_epoch v <= v_activation_epoch v;
  af_cur : current_sync_committee t = current_sync_committee s; af_next : next_sync_committee t = next_sync_committee s;
  af_genesis : genesis_time t = genesis_time s; af_nwv : next_withdrawal_validator_index t = next_withdrawal_validator_index s;
  af_nwi : next_withdrawal_index t = next_withdrawal_index s; af_di : eth1_deposit_index t = eth1_deposit_index s; af_e1 : eth1_data t = eth1_data s;
  af_votes : eth1_data_votes t = eth1_data_votes s \/ eth1_data_votes t = [] }.

Lemma map_ext_nth {A B} (g : A -> B) (l k : list A) : lenN l = lenN k -> (forall i x, nthN k i = Some x -> exists y, nthN l i = Some y /\ g y = g x) -> map g l = map g k.
Proof.
  intros Hl H. apply nthN_ext_len; [rewrite !lenN_map; exact Hl|]. intros i y Hy. rewrite nthN_map in *. destruct (nthN k i) as [x|] eqn:Hx; [|discriminate].
  injection Hy as <-. destruct (H i x Hx) as (y & -> & Hy). cbn. congruence.
Qed.
Lemma all_nth {A} (P : A -> Prop) (l k : list A) : lenN l = lenN k -> (forall i x y, nthN k i = Some x -> nthN l i = Some y -> P y) -> forall y, In y l -> P y.
Proof.
  intros Hl H y Hy. apply In_nthN in Hy as [i Hi]. assert (Hk : i < lenN k) by (rewrite <- Hl; exact (nthN_some _ _ _ Hi)). destruct (nthN_lt _ _ Hk) as [x Hx]. exact (H i x y Hx Hi).
Qed.

Lemma after_summaries f s t z : after f s t -> after f s (set_historical_summaries z t).
Proof. intros []. constructor; assumption. Qed.
Lemma after_hroots f s t z : after f s t -> after f s (set_historical_roots z t).
Proof. intros []. constructor; assumption. Qed.
Lemma after_votes f s t x y : after f s t -> after f s (set_current_epoch_attestations x (set_previous_epoch_attestations y t)).
Proof. intros []. constructor; assumption. Qed.
Lemma after_participation f s t : f <> Phase0 -> after f s t ->
  after f s (set_current_epoch_participation (repeatN 0 (lenN (validators t))) (set_previous_epoch_participation (current_epoch_participation t) t)).
Proof.
  intros Hf0 []. constructor; try assumption. destruct af_aligned0 as [H1 H2]. destruct (H2 Hf0) as (A & B & C). split; [exact H1|]. intros _. gs. rewrite lenN_repeatN. auto.
Qed.
Lemma after_core f s vs bs ev ws sl rm : let t := set_randao_mixes rm (set_slashings sl (set_validators ws (set_eth1_data_votes ev (set_balances bs (set_validators vs s))))) in
  state_shape E t -> map v_public_key ws = map v_public_key (validators s) -> registry_aligned f t -> (forall v, In v ws -> v_effective_balance v <= MAX_EFFECTIVE_BALANCE E) ->
  (forall b, In b bs -> b < 2 ^ 60) -> (forall x, In x sl -> x < 2 ^ 60) -> (forall v, In v ws -> v_exit_epoch v <> FAR_FUTURE_EPOCH -> v_exit_epoch v < 2 ^ 61) ->
  (forall v, In v ws -> v_activation_epoch v <> FAR_FUTURE_EPOCH -> v_activation_eligibility_epoch v <= v_activation_epoch v) -> (ev = eth1_data_votes s \/ ev = []) -> after f s t.
Proof.
  intros t. intros. constructor; unfold exits_below; [assumption|unfold t; gs; reflexivity|unfold t; gs; assumption|assumption|..]; unfold t; gs; first [assumption|reflexivity].
Qed.
Lemma rest_more f s : f <> Electra -> mid E f s -> registry_aligned f s -> exits_below s (2 ^ 60) -> (forall x, In x (slashings s) -> x < 2 ^ 60) -> (forall b, In b (balances s) -> b < 2 ^ 60) ->
  (forall v, In v (validators s) -> v_activation_epoch v <> FAR_FUTURE_EPOCH -> v_activation_eligibility_epoch v <= v_activation_epoch v) ->
  exists t, after f s t
    /\ match f with
       | Phase0 => epoch_rest E f s = (Ok tt, t)
       | _ => epoch_rest E f s = process_sync_committee_updates E t
       end.
Proof.
  intros Hf [] Hal Hx Hsl Hbal Hq. pose proof (epoch_small E Hctx s md_slot) as Hes.
  destruct (C11_registry E f s Hctx Hel md_slot md_shape md_room ltac:(unfold prev_epoch_of in md_fin; lia)) as (s1 & q & H1 & Q & L1 & N1 & x & y & D1 & D2).
  pose proof (registry_exits f s s1 Hf md_slot md_shape Hx H1) as X1. unfold epoch_rest. rewrite (run_bind _ _ _ _ _ H1).
  destruct (D2 Hf) as [-> ->]. rewrite set_exit_balance_to_consume_id, set_earliest_exit_epoch_id in D1.
  assert (Hmap : map v_effective_balance (validators s1) = map v_effective_balance (validators s)).
  { apply stake_ext; [exact L1|]. intros i v Hv. destruct (N1 i v Hv) as (v' & Hv' & (_ & _ & He & _) & _). eauto. }
  assert (Hk1 : map v_public_key (validators s1) = map v_public_key (validators s)).
  { apply map_ext_nth; [exact L1|]. intros i v Hv. destruct (N1 i v Hv) as (v' & Hv' & (He & _) & _). eauto. }
  assert (Hq1 : forall v, In v (validators s1) -> v_activation_epoch v <> FAR_FUTURE_EPOCH -> v_activation_eligibility_epoch v <= v_activation_epoch v).
  { refine (all_nth (fun v => v_activation_epoch v <> FAR_FUTURE_EPOCH -> v_activation_eligibility_epoch v <= v_activation_epoch v) _ _ L1 _). intros i v v' Hv Hv' Hne. destruct (N1 i v Hv) as (w & Hw & _ & R1 & R2 & R3 & _). rewrite Hv' in Hw. injection Hw as <-.
    rewrite R1. destruct (in_dec N.eq_dec i (capped (activation_cap E f s) q)) as [Hi|Hi].
    - rewrite (R2 Hi). apply capped_sub in Hi. apply Q in Hi as (w & Hw & Hr). rewrite Hv in Hw. injection Hw as <-. unfold activation_ready in Hr. apply andb_true_iff in Hr as [Hr _]. apply N.leb_le in Hr.
      unfold earliest_exit. unfold prev_epoch_of in md_fin. destruct (enters_queue E f v); lia.
    - rewrite (R3 Hi) in *. specialize (Hq v (nthN_In _ _ _ Hv) Hne). destruct (enters_queue E f v) eqn:Hen; [|exact Hq].
      unfold enters_queue in Hen. apply andb_true_iff in Hen as [Hen _]. apply N.eqb_eq in Hen. rewrite Hen in Hq. unfold FAR_FUTURE_EPOCH in *. pows. lia. }
  set (vs := validators s1) in *. assert (X1' : forall v, In v vs -> v_exit_epoch v <> FAR_FUTURE_EPOCH -> v_exit_epoch v < 2 ^ 61) by exact X1.
  clear X1 N1 D2 H1. clearbody vs. subst s1. set (s1 := set_validators vs s) in *.
  assert (He1 : forall v, In v vs -> v_effective_balance v <= cap E f) by (apply (in_effective (fun x => x <= cap E f) vs (validators s) Hmap md_eff)).
  assert (Hst1 : registered_stake s1 < 2 ^ 57) by (unfold registered_stake, s1; gs; rewrite Hmap; exact md_stake).
  assert (Heb1 : effective_bounded s1). { intros v Hv. pose proof (He1 v Hv). pose proof (cap_le E Hm f). pows. lia. }
  assert (Hab1 : active_balance_fits E s1). { unfold active_balance_fits. pose proof (active_sum_le s1 (epoch_of E s1)). pows. lia. }
  destruct (C30_correlation_penalty E f s1 Hctx md_slot ltac:(unfold s1; gs; congruence) Heb1 Hab1 (penalties_fit_scale E Hm f s1 He1 Hst1 md_slash)) as (bs & H2 & L2 & N2).
  rewrite (run_bind _ _ _ _ _ H2). change (balances s1) with (balances s) in *. change (validators s1) with vs in N2.
  assert (Hb2 : forall b, In b bs -> b < 2 ^ 60).
  { refine (all_nth (fun b => b < 2 ^ 60) _ _ L2 _). intros i b b' Hb Hb'. assert (Hi : i < lenN vs) by (rewrite L1, <- md_len; exact (nthN_some _ _ _ Hb)). destruct (nthN_lt _ _ Hi) as [v Hv].
    rewrite (N2 i v b Hv Hb) in Hb'. injection Hb' as <-. specialize (Hbal b (nthN_In _ _ _ Hb)). destruct (halfway _ _ _); lia. }
  clear H2 N2. set (s2 := set_balances bs s1) in *.
  rewrite (run_bind _ _ _ _ _ (eth1_reset_run E Hctx s2 Hep md_slot)). set (s3 := if epoch_ends_period _ _ _ then _ else _).
  assert (D3 : exists ev, s3 = set_eth1_data_votes ev s2 /\ (ev = eth1_data_votes s \/ ev = [])).
  { unfold s3. destruct (epoch_ends_period _ _ _); [eauto|]. exists (eth1_data_votes s2). split; [unfold s2, s1; destruct s; reflexivity|left; reflexivity]. }
  clearbody s3. destruct D3 as (ev & -> & Hev). set (s3 := set_eth1_data_votes ev s2) in *.
  assert (H4 : swhen (fork_le Electra f) (process_pending_balance_deposits E ;; process_pending_consolidations E) s3 = (Ok tt, s3)) by (destruct f; try contradiction; reflexivity).
  rewrite (run_bind _ _ _ _ _ H4). clear H4.
  assert (Hsh3 : state_shape E s3) by (unfold state_shape in *; unfold s3, s2, s1; gs; rewrite L1; exact md_shape).
  assert (Hb62 : forall b, In b bs -> b < 2 ^ 62) by (intros b Hb; specialize (Hb2 b Hb); pows; lia).
  assert (Hl3 : lenN (balances s3) = lenN (validators s3)) by (unfold s3, s2, s1; gs; congruence).
  destruct (C29_update E f s3 Hctx Hep Hl3 Heb1 Hb62) as (ws & H5 & L5 & N5).
  unfold epoch_end. rewrite (run_bind _ _ _ _ _ H5). set (s4 := set_validators ws s3).
  change (validators s3) with vs in *. change (balances s3) with bs in *.
  assert (Hsh4 : state_shape E s4) by (unfold state_shape in *; unfold s4; gs; rewrite L5; exact Hsh3).
  rewrite (run_bind _ _ _ _ _ (slashings_reset_run E Hctx s4 md_slot Hsh4)). set (sl := updN (slashings s4) _ 0). set (s5 := set_slashings sl s4).
  assert (Hsh5 : state_shape E s5) by (unfold state_shape in *; unfold s5, sl; gs; rewrite lenN_updN; exact Hsh4).
  destruct (randao_reset_run E Hctx s5 md_slot Hsh5) as (m & _ & H6). rewrite (run_bind _ _ _ _ _ H6). set (s6 := set_randao_mixes _ s5).
  assert (Hsh6 : state_shape E s6) by (unfold state_shape in *; unfold s6; gs; rewrite lenN_updN; exact Hsh5).
  destruct (historical_ok E Hctx Hep Hhash f s6 md_slot) as (s7 & H7 & D7). rewrite (run_bind _ _ _ _ _ H7).
  assert (W : forall i w, nthN ws i = Some w -> exists v b, nthN vs i = Some v /\ w = set_v_effective_balance (next_effective E f v b) v).
  { intros i w Hw. assert (Hi : i < lenN vs) by (rewrite <- L5; exact (nthN_some _ _ _ Hw)). destruct (nthN_lt _ _ Hi) as [v Hv].
    rewrite <- Hl3 in Hi. destruct (nthN_lt _ _ Hi) as [b Hb]. exists v, b. split; [exact Hv|]. rewrite (N5 i v b Hv Hb) in Hw. congruence. }
  assert (Wi : forall P : Validator -> Prop, (forall v b, In v vs -> P (set_v_effective_balance (next_effective E f v b) v)) -> forall w, In w ws -> P w).
  { intros P HP w Hw. apply In_nthN in Hw as [i Hi]. destruct (W i w Hi) as (v & b & Hv & ->). apply HP. eapply nthN_In; eauto. }
  assert (Hws : map v_public_key ws = map v_public_key (validators s)).
  { rewrite <- Hk1. symmetry. apply map_ext_nth; [congruence|]. intros i w Hw. destruct (W i w Hw) as (v & b & Hv & ->). exists v. split; [exact Hv|reflexivity]. }
  assert (Hwe : forall w, In w ws -> v_effective_balance w <= MAX_EFFECTIVE_BALANCE E).
  { refine (Wi (fun w => v_effective_balance w <= MAX_EFFECTIVE_BALANCE E) _). intros v b Hv. gs. specialize (He1 v Hv). unfold cap in He1. unfold next_effective, balance_cap. destruct (left_band _ _ _); destruct f; try contradiction; lia. }
  assert (Hwx : forall w, In w ws -> v_exit_epoch w <> FAR_FUTURE_EPOCH -> v_exit_epoch w < 2 ^ 61) by (refine (Wi (fun w => v_exit_epoch w <> FAR_FUTURE_EPOCH -> v_exit_epoch w < 2 ^ 61) _); intros v b Hv; exact (X1' v Hv)).
  assert (Hwq : forall w, In w ws -> v_activation_epoch w <> FAR_FUTURE_EPOCH -> v_activation_eligibility_epoch w <= v_activation_epoch w) by (refine (Wi (fun w => v_activation_epoch w <> FAR_FUTURE_EPOCH -> v_activation_eligibility_epoch w <= v_activation_epoch w) _); intros v b Hv; exact (Hq1 v Hv)).
  assert (Hlw : lenN ws = lenN (validators s)) by congruence.
  assert (Hsl' : forall x, In x sl -> x < 2 ^ 60) by (intros z Hz; apply In_updN in Hz as [->|Hz]; [pows; lia|exact (Hsl z Hz)]).
  assert (A6 : after f s s6).
  { unfold s6. apply after_core; try assumption.
    - destruct Hal as [_ Ha]. split; [gs; congruence|]. intros Hf'. gs. destruct (Ha Hf') as (? & ? & ?). repeat split; congruence. }
  assert (A7 : after f s s7). { destruct D7 as [->|[[z ->]|[z ->]]]; [exact A6|apply after_summaries; exact A6|apply after_hroots; exact A6]. }
  clear - Hf A7. destruct (Fork_eq_dec f Phase0) as [->|Hf0].
  - exists (set_current_epoch_attestations [] (set_previous_epoch_attestations (current_epoch_attestations s7) s7)). split; [|reflexivity]. apply after_votes. exact A7.
  - exists (set_current_epoch_participation (repeatN 0 (lenN (validators s7))) (set_previous_epoch_participation (current_epoch_participation s7) s7)). split.
    + apply after_participation; assumption.
    + destruct f; try contradiction; reflexivity.
Qed.

Hypothesis Hatt : ctx_sane_att E.
Hypothesis Hwf : hash_wf (hash E).

(** phase0 rewards are far smaller than the balances may be *)
Lemma rewards_more0 s : pre_rewards E Phase0 s -> epoch_of E s < 2 ^ 28 -> 0 < slot s mod SLOTS_PER_EPOCH E -> previous_votes_sound E s -> sumN (balances s) < 2 ^ 58 ->
  exists bs, process_rewards_and_penalties E Phase0 s = (Ok tt, set_balances bs s) /\ lenN bs = lenN (balances s) /\ forall b, In b bs -> b < 2 ^ 60.
Proof.
  intros P Hep28 Hpos Hv Hbal. destruct (phase0_fit E Hm s P Hep28) as [Hfit _]. destruct P. destruct (N.eq_dec (epoch_of E s) 0) as [He|He].
  - exists (balances s). rewrite C32_genesis_epoch by assumption. split; [destruct s; reflexivity|]. split; [reflexivity|]. intros b Hin. apply sumN_In in Hin. clear - Hin Hbal. change (2 ^ 58) with 288230376151711744 in *. pows. lia.
  - destruct pr_aligned as [Hl _].
    destruct (C32_phase0_exact E s Hctx Hatt Hwf pr_mid_shape pr_slot Hpos He Hl pr_fin (stake_fits_scale s pr_stake) Hfit Hv) as (ls & lt & lh & first & V1 & V2 & V3 & V4 & bs & H1 & H2 & H3).
    exists bs. split; [exact H1|]. split; [exact H2|]. intros b Hin. apply In_nthN in Hin as [i Hi].
    assert (Hi' : i < lenN (balances s)) by (rewrite <- H2; exact (nthN_some _ _ _ Hi)). destruct (nthN_lt _ _ Hi') as [b0 Hb0]. rewrite (H3 i b0 Hb0) in Hi. injection Hi as <-.
    assert (Hlt : b0 + 3 * (base0 E s i * (1 + N.max (sumN (map v_effective_balance (validators s))) (EFFECTIVE_BALANCE_INCREMENT E) / EFFECTIVE_BALANCE_INCREMENT E))
       + sumN (map (base0 E s) (rangeN (lenN (validators s)))) < 2 ^ 60).
    { apply nthN_In, sumN_In in Hb0. destruct (base0_le E Hm s i pr_stake pr_eff) as [Hbi _].
      assert (Hall : sumN (map (base0 E s) (rangeN (lenN (validators s)))) < 2 ^ 57).
      { eapply N.le_lt_trans; [|exact pr_stake]. unfold registered_stake. rewrite <- sum_range_validators. apply sum_le_pointwise. intros j _. apply (base0_le E Hm s j pr_stake pr_eff). }
      rewrite (inc_val E Hm). unfold registered_stake in pr_stake. set (T := sumN (map v_effective_balance _)) in *. set (A := sumN (map (base0 E s) _)) in *. clearbody A T.
      assert (Hsh : N.max T 1000000000 / 1000000000 <= 144115188). { clear - pr_stake. change (2 ^ 57) with 144115188075855872 in *. lia. }
      set (S := _ / _) in *. clearbody S. set (B := base0 E s i) in *. clearbody B.
      assert (B * (1 + S) <= 16191260 * 144115189) by (apply N.mul_le_mono; lia). clear - H Hb0 Hbal Hall. change (2 ^ 58) with 288230376151711744 in *. change (2 ^ 57) with 144115188075855872 in *. pows. lia. }
    eapply N.le_lt_trans; [|exact Hlt]. unfold balance_after_phase0.
    pose proof (gain_bound E Hctx s ls i (proj1 V1) (voters_lt E s _ _ V1)) as G1. pose proof (gain_bound E Hctx s lt i (proj1 V2) (voters_lt E s _ _ V2)) as G2.
    pose proof (gain_bound E Hctx s lh i (proj1 V3) (voters_lt E s _ _ V3)) as G3. pose proof (inclusion_bound E s ls first i Hv V1 V4) as G4.
    set (P := base0 E s i * _) in *. set (A := sumN (map (base0 E s) _)) in *. clearbody P A. set (x := vote_loss _ _ _ _ + _ + _ + _). lia.
Qed.

Lemma just_frame f s t x : t = s \/ only_checkpoints E s t -> after f t x -> after f s x.
Proof.
  intros [->|(a & b & c & d & -> & _)] H; [exact H|]. destruct H. constructor; try assumption.
Qed.
Lemma epoch_more f s : f <> Electra -> within_bounds E f s -> block_bounds E f s -> next_epoch_bounds E f s -> 0 < slot s mod SLOTS_PER_EPOCH E ->
  exists t, after f s t /\ match f with Phase0 => process_epoch E f s = (Ok tt, t) | _ => process_epoch E f s = process_sync_committee_updates E t end.
Proof.
  intros Hf W B NE Hpos. destruct NE as [NE1 NE2 NE3 _].
  assert (Hsl : forall x, In x (slashings s) -> x < 2 ^ 60) by apply B.
  assert (Hq : forall v, In v (validators s) -> v_activation_epoch v <> FAR_FUTURE_EPOCH -> v_activation_eligibility_epoch v <= v_activation_epoch v) by apply B.
  destruct (Fork_eq_dec f Phase0) as [->|Hf0].
  - destruct (wb_votes _ _ _ W eq_refl) as (W1 & W2 & W3).
    assert (Hv : votes_recorded E Phase0 s). { intros a Ha. apply in_app_or in Ha as [Ha|Ha]; [apply W1; exact Ha|apply W2; exact Ha]. }
    destruct (just_run E Hctx Hatt Hwf Phase0 s W Hpos Hv) as (s1 & H1 & D1 & F1). destruct (just_pre E Phase0 s s1 W D1 F1) as (P1 & S1 & V1 & I1 & B1 & A1).
    rewrite epoch_rest_eq, (run_bind _ _ _ _ _ H1).
    assert (H2 : swhen (fork_le Altair Phase0) (process_inactivity_updates E) s1 = (Ok tt, s1)) by reflexivity. rewrite (run_bind _ _ _ _ _ H2).
    assert (Hv1 : previous_votes_sound E s1). { destruct D1 as [->|(a & b & c & d & -> & _)]; exact W1. }
    assert (He1 : epoch_of E s1 < 2 ^ 28) by (unfold epoch_of in *; rewrite S1; exact W3).
    assert (Hp1 : 0 < slot s1 mod SLOTS_PER_EPOCH E) by (rewrite S1; exact Hpos).
    destruct (rewards_more0 s1 P1 He1 Hp1 Hv1 ltac:(rewrite B1; exact NE2)) as (bs & H3 & L3 & S3). rewrite (run_bind _ _ _ _ _ H3).
    assert (M : mid E Phase0 (set_balances bs s1)).
    { destruct P1. constructor; try assumption. - gs. destruct pr_aligned. congruence. - intros b Hb. specialize (S3 b Hb). pows. lia. - intros Hx. discriminate. }
    destruct (rest_more Phase0 (set_balances bs s1) Hf M) as (t & T1 & T2); try assumption.
    + destruct P1. destruct pr_aligned as [Ha _]. split; [gs; congruence|]. intros Hx; contradiction.
    + unfold exits_below in *. gs. rewrite V1. exact NE3.
    + destruct D1 as [->|(a & b & c & d & -> & _)]; exact Hsl.
    + gs. rewrite V1. exact Hq.
    + exists t. split; [|exact T2]. apply (just_frame Phase0 s s1 t D1). destruct T1. constructor; assumption.
  - assert (Hv : votes_recorded E f s). { destruct W. destruct wb_aligned as [_ H]. destruct (H Hf0) as (A & A' & _). destruct f; try contradiction; split; assumption. }
    destruct (just_run E Hctx Hatt Hwf f s W Hpos Hv) as (s1 & H1 & D1 & F1). destruct (just_pre E f s s1 W D1 F1) as (P1 & S1 & V1 & I1 & B1 & _).
    rewrite epoch_rest_eq, (run_bind _ _ _ _ _ H1).
    assert (E1 : prev_epoch_of E s1 = prev_epoch_of E s) by (unfold prev_epoch_of, epoch_of; rewrite S1; reflexivity).
    destruct (inactivity_ok E Hctx Hm s1) as (sc & H2 & L2 & X2).
    { destruct P1. destruct pr_aligned as [A A']. split; [exact A|]. intros _. exact (A' Hf0). } { rewrite E1. exact F1. } { rewrite I1. apply W. }
    assert (H2' : swhen (fork_le Altair f) (process_inactivity_updates E) s1 = (Ok tt, set_inactivity_scores sc s1)) by (destruct f; try contradiction; exact H2).
    rewrite (run_bind _ _ _ _ _ H2'). set (s2 := set_inactivity_scores sc s1) in *.
    assert (P2 : pre_rewards E f s2).
    { destruct P1. constructor; try assumption. destruct pr_aligned as [A A']. split; [exact A|]. intros Hf'. destruct (A' Hf') as (B2 & B3 & B4). unfold s2. gs. repeat split; congruence. }
    destruct (rewards_ok E Hctx Hm Hatt f s2 Hf0 P2 X2) as (bs & H3 & L3 & S3). rewrite (run_bind _ _ _ _ _ H3).
    destruct (rest_more f (set_balances bs s2) Hf (pre_mid E f s2 bs P2 L3 S3)) as (t & T1 & T2); try assumption.
    + destruct P2. destruct pr_aligned as [A A']. split; [gs; congruence|]. exact A'.
    + unfold exits_below in *. gs. unfold s2. gs. rewrite V1. exact NE3.
    + unfold s2. destruct D1 as [->|(a & b & c & d & -> & _)]; exact Hsl.
    + intros b Hb. gsh Hb. apply sumN_In in Hb. change (balances s2) with (balances s1) in S3. rewrite B1 in S3. destruct P2. unfold registered_stake in *.
      set (x := sumN (map _ _)) in *. set (y := sumN (balances s)) in *. set (z := sumN bs) in *. clear - Hb S3 NE2 pr_stake. change (2 ^ 58) with 288230376151711744 in *. change (2 ^ 57) with 144115188075855872 in *. pows. lia.
    + gs. unfold s2. gs. rewrite V1. exact Hq.
    + exists t. split; [|destruct f; try contradiction; exact T2]. apply (just_frame f s s1 t D1). destruct T1. constructor; assumption.
Qed.

(** ** the state a block meets after the boundary *)
Lemma keys_lookup pk l k : map v_public_key l = map v_public_key k -> (exists v, In v k /\ v_public_key v = pk) -> exists v, In v l /\ v_public_key v = pk.
Proof.
  intros He (v & Hv & <-). apply (in_map v_public_key) in Hv. rewrite <- He in Hv. apply in_map_iff in Hv as (w & Hw & Hin). eauto.
Qed.
Lemma stake_le_cap c l : (forall v, In v l -> v_effective_balance v <= c) -> sumN (map v_effective_balance l) <= lenN l * c.
Proof.
  induction l as [|v l IH]; intros H; [cbn; lia|]. cbn [map]. rewrite sumN_cons, lenN_cons. specialize (IH (fun w Hw => H w (or_intror Hw))). specialize (H v (or_introl eq_refl)). nia.
Qed.
Lemma after_bounds f s t n c d : f <> Electra -> block_bounds E f s -> next_epoch_bounds E f s -> after f s t -> n < 2 ^ 56 ->
  (c = current_sync_committee s \/ c = next_sync_committee s) -> block_bounds E f (set_slot n (set_current_sync_committee c (set_next_sync_committee d t))).
Proof.
  intros Hf B NE A Hn Hcom. destruct B as [B1 B2 B3 B4 B5 B6 B7 B8 B9 B10 B11 B12 B13 B14]. destruct NE as [NE1 NE2 NE3 NE4]. destruct A.
  assert (Hlen : lenN (validators t) = lenN (validators s)). { rewrite <- (lenN_map v_public_key (validators t)), af_keys0, lenN_map. reflexivity. }
  constructor; try assumption.
  - gs. rewrite Hlen. exact B2.
  - intros v Hv. specialize (af_eff0 v Hv). destruct f; try contradiction; exact af_eff0.
  - unfold registered_stake. gs. eapply N.le_lt_trans; [apply (stake_le_cap (MAX_EFFECTIVE_BALANCE E)); exact af_eff0|]. rewrite Hlen. exact NE1.
  - intros Hf0. unfold committee_registered. gs. destruct (B11 Hf0) as [C1 C2]. destruct (NE4 Hf0) as [C3 C4].
    destruct Hcom as [-> | ->]; (split; [|assumption]); intros pk Hpk; eapply keys_lookup; try exact af_keys0; auto.
  - gs. rewrite af_genesis0. exact B12.
  - intros Hc. gs. rewrite af_nwv0, af_nwi0, Hlen. exact (B13 Hc).
  - gs. rewrite af_di0, af_e2. destruct B14 as (E1 & E2 & E3). split; [|auto]. destruct af_votes0 as [-> | ->]; [exact E1|]. change (lenN (@nil Eth1Data)) with 0. pows. lia.
Qed.

Lemma after_vote f s t b n : after f s t -> vote_keeps_deposits E b s -> vote_keeps_deposits E b (set_slot n t).
Proof.
  intros [] H. unfold vote_keeps_deposits in *. gs. rewrite af_di0. destruct af_votes0 as [-> | ->]; [exact H|].
  intros Hmaj. exfalso. unfold has_majority, voting_period in Hmaj. cbn [app] in Hmaj.
  assert (Hle : votes_for (bb_eth1_data b) [bb_eth1_data b] <= 1). { unfold votes_for. cbn [count_occ]. destruct (Eth1Data_eq_dec _ _); lia. }
  assert (H2 : 2 <= SLOTS_PER_EPOCH E) by apply Hm. assert (H3 : 0 < EPOCHS_PER_ETH1_VOTING_PERIOD E) by (unfold ctx_sane_epoch in Hep; lia).
  set (v := votes_for _ _) in *. clearbody v. nia.
Qed.

Lemma only_roots_moved s t u : moved s t -> only_roots t u -> moved s u.
Proof. intros (br & h & sr & m & -> & H & K) (br' & h' & sr' & -> & H' & K'). exists br', h', sr', m. gsh H'. gsh K'. split; [destruct s; reflexivity|]. split; congruence. Qed.
Lemma boundary_moved f s0 n s : moved s0 s -> within_bounds E f s -> slot s + N.of_nat (S n) = epoch_start_after E s -> epoch_start_after E s < 2 ^ 56 ->
  exists s1, moved s0 s1 /\ within_bounds E f s1 /\ 0 < slot s1 mod SLOTS_PER_EPOCH E /\ epoch_of E s1 = epoch_of E s
    /\ slots_loop E f (S n) (epoch_start_after E s) s
       = match process_epoch E f s1 with (Ok _, t) => (Ok tt, set_slot (epoch_start_after E s) t) | (r, t) => (r, t) end.
Proof.
  revert s. induction n as [|n IH]; intros s M W Hn Hl; set (target := epoch_start_after E s) in *.
  - rewrite loop_step by lia. destruct (advance_run E Hctx Hhash f s W ltac:(lia)) as (s1 & R1 & H1). destruct (boundary E Hm s ltac:(unfold target in *; lia)) as [B1 B2].
    rewrite B1 in H1. cbn [N.eqb] in H1.
    assert (A1 : slot s1 = slot s) by (destruct R1 as (br & h & sr & -> & _); reflexivity).
    exists s1. split; [exact (only_roots_moved s0 s s1 M R1)|]. split; [exact (only_roots_within E f s s1 R1 W)|]. rewrite A1. split; [exact B2|]. split; [unfold epoch_of; rewrite A1; reflexivity|].
    unfold sbind. rewrite H1. destruct (process_epoch E f s1) as [[[]| | |] t]; try reflexivity. replace (slot s + 1) with target by (unfold target; lia).
    apply loop_done. unfold target. gs. lia.
  - rewrite loop_step by lia. destruct (advance_run E Hctx Hhash f s W ltac:(lia)) as (s1 & R1 & H1). destruct (not_boundary E Hctx s ltac:(unfold target in *; lia)) as [B1 B2].
    destruct (N.eqb_spec ((slot s + 1) mod SLOTS_PER_EPOCH E) 0) as [Hz|_]; [contradiction|]. rewrite (run_bind _ _ _ _ _ H1).
    assert (W1 : within_bounds E f (set_slot (slot s + 1) s1)).
    { apply within_next; [exact (only_roots_within E f s s1 R1 W)| |lia]. rewrite B2. destruct R1 as (br & h & sr & -> & _). reflexivity. }
    assert (Hes : epoch_start_after E (set_slot (slot s + 1) s1) = target).
    { unfold target, epoch_start_after, epoch_of in *. change (slot (set_slot (slot s + 1) s1)) with (slot s + 1). rewrite B2. reflexivity. }
    destruct (IH _ (moved_slot _ _ (slot s + 1) (only_roots_moved s0 s s1 M R1)) W1) as (s2 & I1 & I2 & I3 & I4 & I5).
    { rewrite Hes. change (slot (set_slot (slot s + 1) s1)) with (slot s + 1). unfold target. lia. } { rewrite Hes. exact Hl. }
    rewrite Hes in I5. exists s2. split; [exact I1|]. split; [exact I2|]. split; [exact I3|]. split; [rewrite I4; exact B2|]. exact I5.
Qed.

Lemma moved_next f s t : moved s t -> next_epoch_bounds E f s -> next_epoch_bounds E f t.
Proof. intros (br & h & sr & m & -> & H & K) []. constructor; assumption. Qed.

Hypothesis Hrw : roots_wide E.
Hypothesis Hfuel : N.of_nat (fuel E) < 2 ^ 60.

(** the state in which a block of the next epoch is processed *)
Lemma slots_next f s b target : f <> Electra -> within_bounds E f s -> block_bounds E f s -> next_epoch_bounds E f s -> vote_keeps_deposits E b s ->
  active_set s (epoch_of E s + 1) <> [] -> epoch_start_after E s <= target -> target < epoch_start_after E s + SLOTS_PER_EPOCH E -> target < 2 ^ 56 ->
  safe (fun t => t = s) (process_slots E f target) (fun _ t => block_bounds E f t /\ vote_keeps_deposits E b t).
Proof.
  intros Hf W B NE Hv Hact Hlo Hhi Hs t ->. set (e := epoch_start_after E s) in *. assert (Hsp : 2 <= SLOTS_PER_EPOCH E) by apply Hm.
  assert (Hse : slot s < e). { unfold e, epoch_start_after, epoch_of. pose proof (N.div_mod (slot s) (SLOTS_PER_EPOCH E) ltac:(lia)) as D. pose proof (N.mod_lt (slot s) (SLOTS_PER_EPOCH E) ltac:(lia)). set (q := _ / _) in *. clearbody q. nia. }
  rewrite process_slots_loop by lia.
  assert (Hk : exists k, N.to_nat (e - slot s) = S k) by (exists (pred (N.to_nat (e - slot s))); lia). destruct Hk as [k Hk].
  destruct (boundary_moved f s k s (moved_refl s) W ltac:(fold e; lia) ltac:(fold e; lia)) as (s1 & M & W1 & Hp & He & Hloop). fold e in Hloop.
  assert (HB1 : block_bounds E f s1) by (apply (moved_bounds E f s); [exact M|apply W1|exact B]).
  assert (HN1 : next_epoch_bounds E f s1) by (apply (moved_next f s); assumption).
  assert (HV1 : vote_keeps_deposits E b s1) by (apply (moved_vote E b s); assumption).
  assert (Hact1 : active_set s1 (epoch_of E s1 + 1) <> []) by (rewrite He; destruct M as (br & h & sr & m & -> & _); exact Hact).
  assert (Hend : safe (fun t => t = s) (slots_loop E f (S k) e) (fun _ t => slot t = e /\ block_bounds E f t /\ vote_keeps_deposits E b t)).
  { intros t ->. rewrite Hloop. destruct (epoch_no_panic E Hctx Hm Hel Hep Hhash Hatt Hwf f s1 W1 Hp) as [_ Hnp]. specialize (Hnp Hact1 Hfuel).
    destruct (epoch_more f s1 Hf W1 HB1 HN1 Hp) as (u & A & Hu).
    assert (Hout : forall t, process_epoch E f s1 = (Ok tt, t) -> after f s1 u /\ exists c n, t = set_current_sync_committee c (set_next_sync_committee n u) /\ (c = current_sync_committee s1 \/ c = next_sync_committee s1)).
    { intros t Ht. split; [exact A|]. destruct (Fork_eq_dec f Phase0) as [->|Hf0].
      - rewrite Hu in Ht. injection Ht as <-. exists (current_sync_committee u), (next_sync_committee u). split; [destruct u; reflexivity|]. left. apply A.
      - assert (Hu' : process_epoch E f s1 = process_sync_committee_updates E u) by (destruct f; try contradiction; exact Hu).
        rewrite Hu', (sync_update_run E Hctx Hep u) in Ht by (unfold slot_small; rewrite (af_slot _ _ _ A); apply W1).
        destruct (epoch_ends_period _ _ _).
        + destruct (get_next_sync_committee E u) as [c| | |]; try discriminate. injection Ht as <-. exists (next_sync_committee u), c. split; [reflexivity|]. right. apply A.
        + injection Ht as <-. exists (current_sync_committee u), (next_sync_committee u). split; [destruct u; reflexivity|]. left. apply A. }
    destruct (process_epoch E f s1) as [[[]| | |] t]; try exact I; [|exfalso; apply Hnp; reflexivity].
    destruct (Hout t eq_refl) as (_ & c & n & -> & Hc). split; [reflexivity|].
    assert (Hbb : block_bounds E f (set_slot e (set_current_sync_committee c (set_next_sync_committee n u)))) by (apply (after_bounds f s1); try assumption; lia).
    split; [exact Hbb|]. pose proof (after_vote f s1 u b e A HV1) as HV. exact HV. }
  destruct (N.eq_dec target e) as [->|Hne].
  - rewrite Hk. specialize (Hend s eq_refl). destruct (slots_loop E f (S k) e s) as [[[]| | |] t]; auto. apply Hend.
  - assert (Hsum : N.to_nat (target - slot s) = (S k + N.to_nat (target - e))%nat) by lia. rewrite Hsum.
    rewrite (loop_split E Hctx f e target ltac:(lia) ltac:(pows; lia)) by lia.
    cut (safe (fun t => t = s) (sbind (slots_loop E f (S k) e) (fun _ => slots_loop E f (N.to_nat (target - e)) target)) (fun _ t => block_bounds E f t /\ vote_keeps_deposits E b t)); [intros HS; exact (HS s eq_refl)|].
    eapply safe_seq; [exact Hend|]. intros _ t (T1 & T2 & T3).
    assert (Hin : target < epoch_end_of E e).
    { unfold epoch_end_of, e, epoch_start_after. rewrite N.div_mul by lia. unfold e, epoch_start_after in Hhi. lia. }
    pose proof (safe_loop E Hctx Hfuel f t target (bb_shape _ _ _ T2) Hs (N.to_nat (target - e)) e ltac:(lia) Hin t (conj (moved_refl t) T1)) as HL.
    destruct (slots_loop E f (N.to_nat (target - e)) target t) as [[[]| | |] t']; auto. destruct HL as [M' S'].
    split; [apply (moved_bounds E f t); [exact M'|unfold slot_small; rewrite S'; exact Hs|exact T2]|apply (moved_vote E b t); assumption].
Qed.
End C.
