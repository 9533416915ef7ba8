(** * Proofs about the steps of epoch processing (proof file; no model definitions) *)
From Verif Require Import Base BaseLemmas Types Ctx Env Helpers HelpersAltair HelpersElectra Block Epoch Transition StLemmas Frame
  SpecCommon SpecShuffle SpecHelpers SpecOps SpecElectra SpecAtt SpecFinality SpecSlots SpecEpoch
  HelperProofs HelperProofs2 OpsProofs ElectraProofs SlashProofs AttProofs FrameProofs FinalityProofs.
From Coq Require Import Sorted Permutation.

Lemma rfold_sum c l : forall a, a + sumN l < U64 -> rfold (uadd c) l a = Ok (a + sumN l).
Proof.
  induction l as [|x l IH]; intros a H; cbn [rfold].
  - f_equal. change (sumN []) with 0. lia.
  - rewrite sumN_cons in *. rewrite uadd_ok by lia. cbn [rbind]. rewrite IH by lia. f_equal. lia.
Qed.
Lemma lenN_repeatN {A} (x : A) n : lenN (repeatN x n) = n.
Proof. unfold repeatN, lenN. rewrite repeat_length. lia. Qed.
Lemma nthN_repeatN {A} (x : A) n i : i < n -> nthN (repeatN x n) i = Some x.
Proof.
  intros H. destruct (nthN_lt (repeatN x n) i) as [y Hy]; [rewrite lenN_repeatN; exact H|]. rewrite Hy. f_equal.
  apply nthN_In in Hy. unfold repeatN in Hy. apply repeat_spec in Hy. exact Hy.
Qed.

Lemma round_down_eq a b : b <> 0 -> a - a mod b = a / b * b.
Proof. intros H. pose proof (N.div_mod a b H) as Hd. rewrite N.mul_comm. set (m := a mod b) in *. set (q := a / b) in *. clearbody m q. set (p := b * q) in *. clearbody p. lia. Qed.

Section WithEnv.
Variable E : Env.
Hypothesis Hctx : ctx_sane E.

Lemma inc_nz : EFFECTIVE_BALANCE_INCREMENT E <> 0. Proof. unfold ctx_sane in Hctx; lia. Qed.
Lemma active_balance_pos s : active_balance E s <> 0. Proof. pose proof inc_nz. unfold active_balance. lia. Qed.

(** loops over all balances, over all validators *)
Definition bal_loop := column_loop set_balances.
Definition val_loop := column_loop set_validators.
Definition score_loop := column_loop set_inactivity_scores.

(** ** C29 *)
Lemma compounding_kind v : has_compounding_withdrawal_credential v = kind_is 2 v.
Proof. unfold has_compounding_withdrawal_credential, is_compounding_withdrawal_credential, kind_is. destruct (v_withdrawal_credentials v); reflexivity. Qed.
Lemma cap_eq f v : effective_balance_limit E f v = balance_cap E f v.
Proof. destruct f; try reflexivity. cbn. unfold get_validator_max_effective_balance. rewrite compounding_kind. reflexivity. Qed.
Lemma effective_updates_run f s : ctx_sane_epoch E -> lenN (balances s) = lenN (validators s) -> effective_bounded s ->
  (forall b, In b (balances s) -> b < 2 ^ 62) ->
  exists vs, process_effective_balance_updates E f s = (Ok tt, set_validators vs s) /\ lenN vs = lenN (validators s)
    /\ forall i v b, nthN (validators s) i = Some v -> nthN (balances s) i = Some b ->
         nthN vs i = Some (set_v_effective_balance (next_effective E f v b) v).
Proof.
  intros (Hq & Hd & Hu & _) Hlen Heb Hbal. pose proof inc_nz as Hi. unfold process_effective_balance_updates.
  set (h := EFFECTIVE_BALANCE_INCREMENT E / HYSTERESIS_QUOTIENT E).
  assert (Hh : h <= 4294967296). { assert (h <= EFFECTIVE_BALANCE_INCREMENT E) by (apply N.div_le_upper_bound; nia). clear - H Hctx. ctxs Hctx. lia. }
  set (D := h * HYSTERESIS_DOWNWARD_MULTIPLIER E). set (U := h * HYSTERESIS_UPWARD_MULTIPLIER E).
  assert (HD : D <= 4294967296 * 65536) by (unfold D; pows; nia). assert (HU : U <= 4294967296 * 65536) by (unfold U; pows; nia).
  rewrite (run_lift _ _ _ (D, U)).
  2:{ rewrite udiv_ok by lia. cbn [rbind]. fold h. unfold mul. rewrite umul_ok by (fold D; pows; lia). cbn [rbind]. rewrite umul_ok by (fold U; pows; lia). reflexivity. }
  rewrite (run_rd _ _ _ (lenN (validators s))) by reflexivity. cbn [fst snd].
  set (g := fun i v => match nthN (balances s) i with Some b => set_v_effective_balance (next_effective E f v b) v | None => v end).
  destruct (val_loop (effective_balance_step E f D U) g s (rangeN (lenN (validators s))) (validators s)) as (vs & H1 & H2 & H3 & H4).
  - apply NoDup_rangeN.
  - intros i Hi'. apply In_rangeN. exact Hi'.
  - intros i v c Hin Hc Hv Hv0. apply In_rangeN in Hin. unfold effective_balance_step.
    rewrite (run_rd _ _ _ v) by (apply idx_ok; gs; exact Hv).
    destruct (nthN_lt (balances s) i) as [b Hb]; [lia|]. rewrite (run_rd _ _ _ b) by (apply idx_ok; gs; exact Hb). cbv zeta.
    pose proof (Hbal b (nthN_In _ _ _ Hb)) as Hbb. pose proof (Heb v (nthN_In _ _ _ Hv0)) as Hev.
    rewrite (run_lift _ _ _ (left_band E (v_effective_balance v) b)).
    2:{ unfold add, left_band. fold h. fold D. fold U. rewrite uadd_ok by (pows; lia). cbn [rbind].
        destruct (b + D <? v_effective_balance v); [reflexivity|]. rewrite uadd_ok by (pows; lia). reflexivity. }
    unfold g. rewrite Hb. unfold next_effective. destruct (left_band E (v_effective_balance v) b); cbn [swhen].
    + rewrite (run_lift _ _ _ (rounded_down E b)).
      * rewrite (mod_validator_ok _ i _ v) by (gs; exact Hv). f_equal. rewrite cap_eq. gs. reflexivity.
      * rewrite umod_ok by exact Hi. cbn [rbind]. unfold sub. rewrite usub_ok by (apply N.mod_le; exact Hi). f_equal. unfold rounded_down.
        apply round_down_eq. exact Hi.
    + rewrite updN_id; [reflexivity|]. rewrite Hv. f_equal. destruct v; reflexivity.
  - rewrite set_validators_id in H1. exists vs. split; [exact H1|]. split; [exact H2|]. intros i v b Hv Hb.
    rewrite (H3 i v); [unfold g; rewrite Hb; reflexivity| |exact Hv]. apply In_rangeN. eapply nthN_some; eauto.
Qed.
Lemma next_effective_idem f v b : next_effective E f (set_v_effective_balance (next_effective E f v b) v) b = next_effective E f v b.
Proof.
  unfold next_effective at 1. assert (Hc : forall x, balance_cap E f (set_v_effective_balance x v) = balance_cap E f v) by (intros; destruct f; reflexivity).
  gs. rewrite Hc. destruct (left_band E (next_effective E f v b) b) eqn:H1; [|reflexivity].
  unfold next_effective in *. destruct (left_band E (v_effective_balance v) b) eqn:H2; [reflexivity|congruence].
Qed.

(** ** C30 *)
Lemma multiplier_eq f : slashing_multiplier E f = correlation_multiplier E f. Proof. destruct f; reflexivity. Qed.
Lemma penalty_small f s v : correlation_penalty E f s v <= v_effective_balance v.
Proof.
  pose proof inc_nz as Hi. pose proof (active_balance_pos s) as Ht. unfold correlation_penalty.
  set (q := v_effective_balance v / EFFECTIVE_BALANCE_INCREMENT E).
  assert (H1 : q * EFFECTIVE_BALANCE_INCREMENT E <= v_effective_balance v) by (unfold q; rewrite N.mul_comm; apply N.mul_div_le; exact Hi).
  assert (H2 : q * slashed_share E f s / active_balance E s <= q).
  { apply N.div_le_upper_bound; [exact Ht|]. rewrite (N.mul_comm (active_balance E s)). apply N.mul_le_mono_l. apply N.le_min_r. }
  etransitivity; [apply N.mul_le_mono_r; exact H2|exact H1].
Qed.
Lemma slashings_run f s : slot_small s -> lenN (balances s) = lenN (validators s) -> effective_bounded s -> active_balance_fits E s -> penalties_fit E f s ->
  exists bal, process_slashings E f s = (Ok tt, set_balances bal s) /\ lenN bal = lenN (balances s)
    /\ forall i v b, nthN (validators s) i = Some v -> nthN (balances s) i = Some b ->
         nthN bal i = Some (b - (if halfway E s v then correlation_penalty E f s v else 0)).
Proof.
  intros Hs Hlen Heb Hfit (Hp0 & Hp1 & Hp2). pose proof inc_nz as Hi. pose proof (active_balance_pos s) as Ht. unfold process_slashings.
  rewrite (run_rd _ _ _ (epoch_of E s)) by (apply current_epoch_ok; exact Hctx).
  rewrite (run_rd _ _ _ (active_balance E s)) by (apply active_balance_ok; assumption).
  rewrite (run_rd _ _ _ (slashed_share E f s)).
  2:{ rewrite multiplier_eq. unfold add, mul. rewrite rfold_sum by (cbn [N.add]; pows; lia).
      cbn [rbind]. rewrite umul_ok by (cbn [N.add]; pows; lia). reflexivity. }
  rewrite (run_rd _ _ _ (lenN (validators s))) by reflexivity.
  set (g := fun i b => match nthN (validators s) i with Some v => b - (if halfway E s v then correlation_penalty E f s v else 0) | None => b end).
  destruct (bal_loop (slashings_step E (epoch_of E s) (active_balance E s) (slashed_share E f s)) g s (rangeN (lenN (validators s))) (balances s)) as (bal & H1 & H2 & H3 & H4).
  - apply NoDup_rangeN.
  - intros i Hi'. apply In_rangeN in Hi'. lia.
  - intros i b c Hin Hc Hb Hb0. apply In_rangeN in Hin. unfold slashings_step. destruct (nthN_lt (validators s) i Hin) as [v Hv].
    rewrite (run_rd _ _ _ v) by (apply idx_ok; gs; exact Hv). unfold g. rewrite Hv. unfold halfway.
    destruct (v_slashed v); cbn [andb].
    + pose proof (epoch_small E Hctx s Hs) as Hes.
      assert (HV : EPOCHS_PER_SLASHINGS_VECTOR E / 2 <= 4294967296) by (clear - Hctx; ctxs Hctx; apply N.div_le_upper_bound; lia).
      rewrite (run_lift _ _ _ (epoch_of E s + EPOCHS_PER_SLASHINGS_VECTOR E / 2)) by (unfold add; apply uadd_ok; pows; lia).
      rewrite N.eqb_sym. destruct (v_withdrawable_epoch v =? _); cbn [swhen].
      * pose proof (penalty_small f s v) as Hps. pose proof (Heb v (nthN_In _ _ _ Hv)) as Hev. specialize (Hp2 v (nthN_In _ _ _ Hv)).
        rewrite (run_lift _ _ _ (correlation_penalty E f s v)).
        2:{ rewrite udiv_ok by exact Hi. cbn [rbind]. unfold mul. rewrite umul_ok by (pows; lia). cbn [rbind]. rewrite udiv_ok by exact Ht. cbn [rbind].
            rewrite umul_ok; [reflexivity|]. fold (correlation_penalty E f s v). pows; lia. }
        rewrite (decrease_balance_ok E _ i _ b) by (gs; exact Hb). reflexivity.
      * rewrite N.sub_0_r, updN_id by exact Hb. reflexivity.
    + rewrite N.sub_0_r, updN_id by exact Hb. reflexivity.
  - rewrite set_balances_id in H1. exists bal. split; [exact H1|]. split; [exact H2|]. intros i v b Hv Hb.
    rewrite (H3 i b); [unfold g; rewrite Hv; reflexivity| |exact Hb]. apply In_rangeN. eapply nthN_some; eauto.
Qed.

(** ** C31: the steps *)
Lemma next_epoch_ok s : slot_small s -> next_epoch E s = Ok (epoch_of E s + 1).
Proof.
  intros Hs. pose proof (epoch_small E Hctx s Hs). unfold next_epoch. rewrite current_epoch_ok by exact Hctx. cbn [rbind]. unfold add. apply uadd_ok. pows; lia.
Qed.
Lemma eth1_reset_run s : ctx_sane_epoch E -> slot_small s ->
  process_eth1_data_reset E s = (Ok tt, if epoch_ends_period E s (EPOCHS_PER_ETH1_VOTING_PERIOD E) then set_eth1_data_votes [] s else s).
Proof.
  intros Hc Hs. unfold process_eth1_data_reset. rewrite (run_rd _ _ _ ((epoch_of E s + 1) mod EPOCHS_PER_ETH1_VOTING_PERIOD E)).
  - unfold epoch_ends_period. destruct (_ =? 0); reflexivity.
  - rewrite next_epoch_ok by exact Hs. cbn [rbind]. apply umod_ok. destruct Hc as (_&_&_&H&_). lia.
Qed.
Lemma slashings_reset_run s : slot_small s -> state_shape E s ->
  process_slashings_reset E s = (Ok tt, set_slashings (updN (slashings s) ((epoch_of E s + 1) mod EPOCHS_PER_SLASHINGS_VECTOR E) 0) s).
Proof.
  intros Hs Hsh. assert (Hp : EPOCHS_PER_SLASHINGS_VECTOR E <> 0) by (unfold ctx_sane in Hctx; lia).
  set (i := (epoch_of E s + 1) mod EPOCHS_PER_SLASHINGS_VECTOR E). unfold process_slashings_reset. rewrite (run_rd _ _ _ i).
  2:{ rewrite next_epoch_ok by exact Hs. cbn [rbind]. apply umod_ok. exact Hp. }
  destruct (nthN_lt (slashings s) i) as [x Hx].
  { destruct Hsh as (_&_&_&->&_). apply N.mod_lt. exact Hp. }
  rewrite (run_rd _ _ _ tt); [reflexivity|]. apply idx_ok in Hx. rewrite Hx. reflexivity.
Qed.
Lemma randao_mix_ok s e : state_shape E s -> exists m, nthN (randao_mixes s) (e mod EPOCHS_PER_HISTORICAL_VECTOR E) = Some m /\ get_randao_mix E s e = Ok m.
Proof.
  intros Hsh. assert (Hp : EPOCHS_PER_HISTORICAL_VECTOR E <> 0) by (unfold ctx_sane in Hctx; lia).
  destruct (nthN_lt (randao_mixes s) (e mod EPOCHS_PER_HISTORICAL_VECTOR E)) as [m Hm].
  { destruct Hsh as (_&_&->&_). apply N.mod_lt. exact Hp. }
  exists m. split; [exact Hm|]. unfold get_randao_mix. rewrite umod_ok by exact Hp. cbn [rbind]. apply idx_ok. exact Hm.
Qed.
Lemma randao_reset_run s : slot_small s -> state_shape E s ->
  exists m, nthN (randao_mixes s) (epoch_of E s mod EPOCHS_PER_HISTORICAL_VECTOR E) = Some m
    /\ process_randao_mixes_reset E s = (Ok tt, set_randao_mixes (updN (randao_mixes s) ((epoch_of E s + 1) mod EPOCHS_PER_HISTORICAL_VECTOR E) m) s).
Proof.
  intros Hs Hsh. destruct (randao_mix_ok s (epoch_of E s) Hsh) as (m & Hm & Hg). exists m. split; [exact Hm|].
  assert (Hp : EPOCHS_PER_HISTORICAL_VECTOR E <> 0) by (unfold ctx_sane in Hctx; lia).
  set (i := (epoch_of E s + 1) mod EPOCHS_PER_HISTORICAL_VECTOR E). unfold process_randao_mixes_reset. rewrite (run_rd _ _ _ (i, m)); [reflexivity|].
  rewrite current_epoch_ok by exact Hctx. cbn [rbind]. rewrite next_epoch_ok by exact Hs. cbn [rbind]. rewrite umod_ok by exact Hp. cbn [rbind]. fold i.
  rewrite Hg. cbn [rbind]. destruct (nthN_lt (randao_mixes s) i) as [x Hx].
  { destruct Hsh as (_&_&->&_). apply N.mod_lt. exact Hp. }
  apply idx_ok in Hx. rewrite Hx. reflexivity.
Qed.
(** the roots of the two history vectors *)
Lemma historical_run f s s' : slot_small s -> ctx_sane_epoch E -> process_historical_update E f s = (Ok tt, s') ->
  (epoch_ends_period E s (SLOTS_PER_HISTORICAL_ROOT E / SLOTS_PER_EPOCH E) = false -> s' = s)
  /\ (epoch_ends_period E s (SLOTS_PER_HISTORICAL_ROOT E / SLOTS_PER_EPOCH E) = true ->
      exists br sr, htr E (ORoots (block_roots s)) = Some br /\ htr E (ORoots (state_roots s)) = Some sr
      /\ (if fork_le Capella f then s' = set_historical_summaries (historical_summaries s ++ [mkHistSum br sr]) s
          else exists root, htr E (OHistoricalSummary (mkHistSum br sr)) = Some root /\ s' = set_historical_roots (historical_roots s ++ [root]) s)).
Proof.
  intros Hs Hc H. assert (Hspe : SLOTS_PER_EPOCH E <> 0) by (unfold ctx_sane in Hctx; lia).
  assert (Hper : SLOTS_PER_HISTORICAL_ROOT E / SLOTS_PER_EPOCH E <> 0).
  { destruct Hc as (_&_&_&_&_&H6). assert (1 <= SLOTS_PER_HISTORICAL_ROOT E / SLOTS_PER_EPOCH E) by (apply N.div_le_lower_bound; lia). lia. }
  unfold process_historical_update in H. apply sbind_ok_inv in H as (o & t & H1 & H). apply inv_rd in H1 as [H1 ->].
  unfold historical_summary_due in H1. rewrite next_epoch_ok in H1 by exact Hs. cbn [rbind] in H1. rewrite udiv_ok in H1 by exact Hspe. cbn [rbind] in H1.
  rewrite umod_ok in H1 by exact Hper. cbn [rbind] in H1. unfold epoch_ends_period. destruct (_ =? 0).
  - split; [discriminate|intros _]. apply rbind_ok_inv in H1 as (br & B & H1). apply rbind_ok_inv in H1 as (sr & S & H1). apply Ok_inj in H1. subst o.
    exists br, sr. unfold htr_r in B, S. destruct (htr E (ORoots (block_roots s))); [|discriminate]. destruct (htr E (ORoots (state_roots s))); [|discriminate].
    apply Ok_inj in B. apply Ok_inj in S. subst. split; [reflexivity|]. split; [reflexivity|]. destruct (fork_le Capella f).
    + apply inv_md in H. exact H.
    + apply sbind_ok_inv in H as (root & t & H2 & H). apply inv_lift in H2 as [H2 ->]. apply inv_md in H. exists root. unfold htr_r in H2.
      destruct (htr E (OHistoricalSummary _)); [|discriminate]. apply Ok_inj in H2. subst. auto.
  - split; [|discriminate]. intros _. apply Ok_inj in H1. subst o. apply inv_ret in H. tauto.
Qed.

(** ** C34 *)
Lemma eligible_from_spec vs : forall i p, eligible_from vs i p (p + 1) = map (fun j => i + j) (indices_where (fun v => active_at p v || (v_slashed v && (p + 1 <? v_withdrawable_epoch v))) vs).
Proof.
  induction vs as [|v vs IH]; intros i p; [reflexivity|]. cbn [eligible_from]. rewrite indices_where_cons, map_app, map_map, IH.
  change (is_active_validator v p) with (active_at p v).
  assert (Hm : map (fun j => i + 1 + j) (indices_where (fun v0 => active_at p v0 || (v_slashed v0 && (p + 1 <? v_withdrawable_epoch v0))) vs)
    = map (fun x => i + (x + 1)) (indices_where (fun v0 => active_at p v0 || (v_slashed v0 && (p + 1 <? v_withdrawable_epoch v0))) vs)) by (apply map_ext; intros; lia).
  rewrite Hm. destruct (active_at p v || _); cbn [map app]; [rewrite N.add_0_r|]; reflexivity.
Qed.
Lemma eligible_ok s : get_eligible_validator_indices E s = Ok (indices_where (eligible_v E s) (validators s)).
Proof.
  unfold get_eligible_validator_indices. rewrite previous_epoch_ok by exact Hctx. cbn [rbind]. rewrite eligible_from_spec. f_equal.
  rewrite (map_ext _ (fun j => j)) by (intros; lia). rewrite map_id. reflexivity.
Qed.
Lemma In_eligible s i : In i (indices_where (eligible_v E s) (validators s)) <-> eligible_at E s i = true.
Proof. rewrite In_indices_where. unfold eligible_at. destruct (nthN (validators s) i) as [v|]; [|split; [intros (v & Hv & _); discriminate|discriminate]].
  split; [intros (w & Hw & He); congruence|intros He; eauto]. Qed.
Lemma leak_ok s : cp_epoch (finalized_checkpoint s) <= prev_epoch_of E s -> is_in_inactivity_leak E s = Ok (leaking E s).
Proof.
  intros H. unfold is_in_inactivity_leak, get_finality_delay. rewrite previous_epoch_ok by exact Hctx. cbn [rbind]. unfold sub. rewrite usub_ok by exact H. reflexivity.
Qed.
(** the validators with flag [k] for the previous epoch, after the genesis epoch *)
Lemma participating_ok s k : epoch_of E s <> 0 -> lenN (previous_epoch_participation s) = lenN (validators s) ->
  get_unslashed_participating_indices E s k (prev_epoch_of E s) = Ok (filter (voted_flag E s k) (rangeN (lenN (validators s)))).
Proof.
  intros He Hlen. unfold get_unslashed_participating_indices. rewrite previous_epoch_ok, current_epoch_ok by exact Hctx. cbn [rbind]. rewrite N.eqb_refl. cbn [negb andb].
  destruct (N.eqb_spec (prev_epoch_of E s) (epoch_of E s)) as [Heq|_]; [unfold prev_epoch_of in Heq; lia|]. rewrite get_active_ok. unfold active_set, indices_where.
  assert (Hg : forall l, (forall i, In i l -> i < lenN (validators s)) ->
    rfilter (fun i => let! p := idx (previous_epoch_participation s) i in let! v := idx (validators s) i in Ok (has_flag p k && negb (v_slashed v)))
      (filter (fun i => match nthN (validators s) i with Some x => active_at (prev_epoch_of E s) x | None => false end) l)
    = Ok (filter (voted_flag E s k) l)).
  { induction l as [|i l IH]; intros Hl; [reflexivity|]. cbn [filter]. destruct (nthN_lt (validators s) i (Hl i (or_introl eq_refl))) as [v Hv].
    destruct (nthN_lt (previous_epoch_participation s) i) as [p Hp]; [rewrite Hlen; apply Hl; left; reflexivity|].
    specialize (IH (fun j Hj => Hl j (or_intror Hj))). unfold voted_flag at 1. rewrite Hv, Hp.
    destruct (active_at (prev_epoch_of E s) v); cbn [andb]; [|exact IH]. cbn [rfilter]. apply idx_ok in Hv, Hp. rewrite Hp. cbn [rbind]. rewrite Hv. cbn [rbind].
    rewrite IH. cbn [rbind]. rewrite has_flag_bit, andb_comm. destruct (negb (v_slashed v) && N.testbit p k); reflexivity. }
  apply Hg. intros i Hi. apply In_rangeN. exact Hi.
Qed.
Lemma memN_voted s k i : memN i (filter (voted_flag E s k) (rangeN (lenN (validators s)))) = voted_flag E s k i.
Proof.
  destruct (voted_flag E s k i) eqn:Hv.
  - apply memN_true, filter_In. split; [|exact Hv]. apply In_rangeN. unfold voted_flag in Hv. destruct (nthN (validators s) i) eqn:Hn; [|discriminate]. eapply nthN_some; eauto.
  - apply memN_false. intros H. apply filter_In in H as [_ H]. congruence.
Qed.
Lemma inactivity_run s : epoch_of E s <> 0 -> lenN (previous_epoch_participation s) = lenN (validators s) -> lenN (inactivity_scores s) = lenN (validators s) ->
  cp_epoch (finalized_checkpoint s) <= prev_epoch_of E s -> (forall x, In x (inactivity_scores s) -> x + INACTIVITY_SCORE_BIAS E < 2 ^ 64) ->
  exists sc, process_inactivity_updates E s = (Ok tt, set_inactivity_scores sc s) /\ lenN sc = lenN (inactivity_scores s)
    /\ forall i x, nthN (inactivity_scores s) i = Some x -> nthN sc i = Some (if eligible_at E s i then next_score E s i x else x).
Proof.
  intros He Hl1 Hl2 Hf Hx. unfold process_inactivity_updates. rewrite (run_rd _ _ _ (epoch_of E s)) by (apply current_epoch_ok; exact Hctx).
  unfold GENESIS_EPOCH. destruct (N.eqb_spec (epoch_of E s) 0); [contradiction|].
  rewrite (run_rd _ _ _ _ (eligible_ok s)).
  rewrite (run_rd _ _ _ (filter (voted_flag E s 1) (rangeN (lenN (validators s))))).
  2:{ rewrite previous_epoch_ok by exact Hctx. cbn [rbind]. apply participating_ok; assumption. }
  rewrite (run_rd _ _ _ _ (leak_ok s Hf)).
  destruct (score_loop (inactivity_update_step E (filter (voted_flag E s 1) (rangeN (lenN (validators s)))) (negb (leaking E s)))
    (next_score E s) s (indices_where (eligible_v E s) (validators s)) (inactivity_scores s)) as (sc & H1 & H2 & H3 & H4).
  - apply NoDup_indices_where.
  - intros i Hi. apply In_eligible in Hi. unfold eligible_at in Hi. destruct (nthN (validators s) i) eqn:Hn; [|discriminate]. rewrite Hl2. eapply nthN_some; eauto.
  - intros i x c Hin Hc Hi Hi0. unfold inactivity_update_step. rewrite (run_rd _ _ _ x) by (apply idx_ok; gs; exact Hi). rewrite memN_voted.
    specialize (Hx x (nthN_In _ _ _ Hi0)). assert (Hlt : i < lenN c) by (eapply nthN_some; eauto).
    set (x1 := if voted_flag E s 1 i then x - 1 else x + INACTIVITY_SCORE_BIAS E).
    rewrite (run_lift _ _ _ x1).
    2:{ unfold x1. destruct (voted_flag E s 1 i); unfold sub, add.
        - rewrite usub_ok by lia. f_equal. lia.
        - apply uadd_ok. pows; lia. }
    rewrite run_md. unfold next_score. fold x1. destruct (leaking E s); cbn [negb swhen].
    + gs. reflexivity.
    + rewrite (run_rd _ _ _ (x1 - INACTIVITY_SCORE_RECOVERY_RATE E)).
      * unfold md. gs. rewrite updN_updN. reflexivity.
      * gs. rewrite (proj2 (idx_ok _ i x1)) by (apply nthN_updN_eq; exact Hlt). cbn [rbind]. unfold sub. rewrite usub_ok by lia. f_equal. lia.
  - rewrite set_inactivity_scores_id in H1. exists sc. split; [exact H1|]. split; [exact H2|]. intros i x Hi. destruct (eligible_at E s i) eqn:Hel.
    + apply H3; [apply In_eligible; exact Hel|exact Hi].
    + rewrite H4; [exact Hi|]. intros Hin. apply In_eligible in Hin. congruence.
Qed.
End WithEnv.
