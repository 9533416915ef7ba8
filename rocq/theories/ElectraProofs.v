(** * Proofs about electra balance churn (proof file; no model definitions) *)
From Verif Require Import Base BaseLemmas Types Ctx Env Helpers HelpersAltair HelpersElectra Block StLemmas
  SpecCommon SpecShuffle SpecHelpers SpecOps SpecElectra HelperProofs HelperProofs2 OpsProofs.

Lemma total_active_eq E s : total_active E s = active_balance E s. Proof. reflexivity. Qed.
Lemma total_active_fits (E : Env) s : ctx_sane E -> active_balance_fits E s -> get_total_active_balance E s = Ok (active_balance E s).
Proof.
  intros Hc Hf. rewrite get_total_active_balance_ok by exact Hc. unfold active_balance_fits in Hf.
  destruct (N.ltb_spec (effective_sum s (active_set s (epoch_of E s))) U64); [reflexivity|]. pows; lia.
Qed.
Lemma sub_mod_le a b : b <> 0 -> a mod b <= a. Proof. intros; apply N.mod_le; assumption. Qed.
Lemma round_ge a b : b <> 0 -> b <= a -> b <= a - a mod b.
Proof.
  intros Hb Hle. pose proof (N.div_mod a b Hb) as Hd. pose proof (N.mod_lt a b Hb).
  assert (1 <= a / b) by (apply N.div_le_lower_bound; lia). nia.
Qed.
Section WithEnv.
Variable E : Env.
Hypothesis Hctx : ctx_sane E.
Hypothesis Hel : ctx_sane_electra E.

Lemma inc_pos : EFFECTIVE_BALANCE_INCREMENT E <> 0. Proof. clear Hel. ctxs Hctx. lia. Qed.
Lemma balance_churn_ok s : active_balance_fits E s -> get_balance_churn_limit E s = Ok (balance_churn E s).
Proof.
  intros Hf. unfold get_balance_churn_limit. rewrite (total_active_fits E s Hctx Hf). cbn [rbind].
  rewrite udiv_ok by (ctxs Hctx; lia). cbn [rbind]. rewrite umod_ok by apply inc_pos. cbn [rbind].
  unfold sub. rewrite usub_ok by (apply sub_mod_le, inc_pos). reflexivity.
Qed.
Lemma exit_churn_ok s : active_balance_fits E s -> get_activation_exit_churn_limit E s = Ok (exit_churn E s).
Proof. intros Hf. unfold get_activation_exit_churn_limit. rewrite balance_churn_ok by exact Hf. reflexivity. Qed.
Lemma balance_churn_ge s : EFFECTIVE_BALANCE_INCREMENT E <= balance_churn E s.
Proof. unfold balance_churn. apply round_ge; [apply inc_pos|]. destruct Hel as [[H _] _]. etransitivity; [exact H|apply N.le_max_l]. Qed.
Lemma exit_churn_bounds s : 1 <= exit_churn E s <= 2 ^ 56.
Proof.
  pose proof (balance_churn_ge s). pose proof inc_pos. destruct Hel as (_ & [H1 H2] & _). unfold exit_churn. pows.
  destruct (N.min_spec (MAX_PER_EPOCH_ACTIVATION_EXIT_CHURN_LIMIT E) (balance_churn E s)) as [[? ->]|[? ->]]; lia.
Qed.
Lemma consolidation_churn_ok s : active_balance_fits E s -> get_consolidation_churn_limit E s = Ok (consolidation_churn E s).
Proof.
  intros Hf. unfold get_consolidation_churn_limit. rewrite balance_churn_ok, exit_churn_ok by exact Hf. cbn [rbind].
  unfold sub. rewrite usub_ok; [reflexivity|]. apply N.le_min_r.
Qed.

(** ** the pure churn arithmetic *)
Definition churn_epochs (per budget bal : N) : N := if budget <? bal then (bal - budget - 1) / per + 1 else 0.
Lemma churn_epochs_spec per budget bal : per <> 0 ->
  bal <= budget + churn_epochs per budget bal * per /\ (forall k, bal <= budget + k * per -> churn_epochs per budget bal <= k).
Proof.
  intros Hp. unfold churn_epochs. destruct (N.ltb_spec budget bal) as [Hlt|Hge]; [|split; intros; lia].
  set (d := bal - budget - 1). pose proof (N.div_mod d per Hp) as Hd. pose proof (N.mod_lt d per Hp) as Hm.
  split; [unfold d in *; nia|]. intros k Hk. assert (d < k * per) by (unfold d; lia). assert (d / per < k); [|lia].
  apply N.div_lt_upper_bound; [exact Hp|]. lia.
Qed.
Lemma churn_epochs_le per budget bal : per <> 0 -> churn_epochs per budget bal <= bal.
Proof. intros Hp. apply churn_epochs_spec; [exact Hp|]. nia. Qed.
Lemma churn_epochs_rest per budget bal : per <> 0 -> budget + churn_epochs per budget bal * per - bal <= N.max budget per.
Proof.
  intros Hp. unfold churn_epochs. destruct (N.ltb_spec budget bal) as [Hlt|Hge]; [|lia].
  set (d := bal - budget - 1). pose proof (N.div_mod d per Hp) as Hd. pose proof (N.mod_lt d per Hp) as Hm.
  assert (budget + (d / per + 1) * per <= bal + per) by (unfold d in *; nia). lia.
Qed.
Lemma churn_step_ok per se sb ae bal : 1 <= per <= 2 ^ 56 -> sb < 2 ^ 62 -> bal < 2 ^ 62 -> N.max se ae < 2 ^ 63 ->
  churn_step E per se sb ae bal =
    let earliest := N.max se ae in
    let budget := if se <? ae then per else sb in
    let n := churn_epochs per budget bal in
    Ok (earliest + n, budget + n * per - bal).
Proof.
  intros Hp Hsb Hb He. cbv zeta. unfold churn_step.
  assert (Hc : (se <? N.max se ae) = (se <? ae)) by (destruct (N.ltb_spec se (N.max se ae)), (N.ltb_spec se ae); lia).
  rewrite Hc. set (budget := if se <? ae then per else sb). assert (Hbud : budget < 2 ^ 62) by (unfold budget; destruct (se <? ae); pows; lia).
  pose proof (churn_epochs_spec per budget bal ltac:(lia)) as [Hcap _].
  pose proof (churn_epochs_le per budget bal ltac:(lia)) as Hle. pose proof (churn_epochs_rest per budget bal ltac:(lia)) as Hrest.
  unfold churn_epochs in *. destruct (N.ltb_spec budget bal) as [Hlt|Hge]; cbn [rbind fst snd].
  - unfold sub, add, mul. rewrite usub_ok by lia. cbn [rbind]. rewrite usub_ok by lia. cbn [rbind]. rewrite udiv_ok by lia. cbn [rbind].
    set (n := (bal - budget - 1) / per) in *. assert (n + 1 <= 2 ^ 62) by (pows; lia).
    rewrite uadd_ok by (pows; lia). cbn [rbind]. rewrite uadd_ok by (pows; lia). cbn [rbind].
    assert ((n + 1) * per < U64) by (pows; lia). rewrite umul_ok by assumption. cbn [rbind]. rewrite uadd_ok by (pows; lia). cbn [rbind fst snd].
    rewrite usub_ok by lia. reflexivity.
  - unfold sub. rewrite usub_ok by lia. cbn [rbind]. rewrite N.mul_0_l, !N.add_0_r. reflexivity.
Qed.

(** ** compute_exit_epoch_and_update_churn *)
Definition exit_slot s bal : N := exit_queue_start E s + churn_epochs (exit_churn E s) (exit_queue_budget E s) bal.
Lemma exit_capacity_slot s bal : bal <= exit_capacity E s (exit_slot s bal)
  /\ (forall e, exit_queue_start E s <= e -> bal <= exit_capacity E s e -> exit_slot s bal <= e).
Proof.
  pose proof (exit_churn_bounds s) as Hp. pose proof (churn_epochs_spec (exit_churn E s) (exit_queue_budget E s) bal ltac:(lia)) as [H1 H2].
  unfold exit_capacity, exit_slot in *. split; [replace (exit_queue_start E s + _ - exit_queue_start E s) with (churn_epochs (exit_churn E s) (exit_queue_budget E s) bal) by lia; exact H1|].
  intros e He Hc. apply H2 in Hc. lia.
Qed.
Lemma compute_exit_epoch_ok s bal : slot_small s -> active_balance_fits E s ->
  exit_balance_to_consume s < 2 ^ 62 -> bal < 2 ^ 62 -> exit_queue_start E s < 2 ^ 63 ->
  compute_exit_epoch_and_update_churn E bal s
  = (Ok (exit_slot s bal), set_earliest_exit_epoch (exit_slot s bal)
      (set_exit_balance_to_consume (exit_capacity E s (exit_slot s bal) - bal) s)).
Proof.
  intros Hs Hf Hx Hb Hq. unfold compute_exit_epoch_and_update_churn.
  rewrite (run_rd _ _ _ (exit_slot s bal, exit_capacity E s (exit_slot s bal) - bal)).
  - rewrite run_md. cbn [fst snd]. reflexivity.
  - cbv beta. rewrite (current_epoch_ok E Hctx). cbn [rbind]. rewrite earliest_ok by assumption. cbn [rbind].
    rewrite exit_churn_ok by assumption. cbn [rbind]. rewrite churn_step_ok; [|apply exit_churn_bounds|exact Hx|exact Hb|exact Hq].
    cbv zeta. unfold exit_slot, exit_capacity. fold (exit_queue_budget E s). fold (exit_queue_start E s). repeat f_equal. lia.
Qed.

(** ** initiate_validator_exit of electra *)
Definition exit_electra_state s i v : BeaconState :=
  let q := exit_slot s (v_effective_balance v) in
  set_validators (updN (validators s) i (exited E q v))
    (set_earliest_exit_epoch q (set_exit_balance_to_consume (exit_capacity E s q - v_effective_balance v) s)).
Lemma initiate_exit_electra_noop s i v :
  nthN (validators s) i = Some v -> v_exit_epoch v <> FAR_FUTURE_EPOCH -> initiate_validator_exit_electra E i s = (Ok tt, s).
Proof.
  intros Hv Hne. unfold initiate_validator_exit_electra. apply idx_ok in Hv. rewrite (run_rd _ _ _ v) by exact Hv.
  destruct (N.eqb_spec (v_exit_epoch v) FAR_FUTURE_EPOCH); [contradiction|]. reflexivity.
Qed.
Lemma initiate_exit_electra_ok s i v : slot_small s -> active_balance_fits E s ->
  exit_balance_to_consume s < 2 ^ 62 -> v_effective_balance v < 2 ^ 62 -> exit_queue_start E s + v_effective_balance v < 2 ^ 63 ->
  nthN (validators s) i = Some v -> v_exit_epoch v = FAR_FUTURE_EPOCH ->
  initiate_validator_exit_electra E i s = (Ok tt, exit_electra_state s i v).
Proof.
  intros Hs Hf Hx Hb Hq Hv Hne. unfold initiate_validator_exit_electra. apply idx_ok in Hv as Hi. rewrite (run_rd _ _ _ v) by exact Hi.
  rewrite Hne. cbn [negb]. rewrite N.eqb_refl. cbn [negb].
  rewrite (run_bind _ _ _ _ _ (compute_exit_epoch_ok s _ Hs Hf Hx Hb ltac:(lia))).
  pose proof (exit_churn_bounds s) as Hp.
  assert (Hle : exit_slot s (v_effective_balance v) <= exit_queue_start E s + v_effective_balance v).
  { unfold exit_slot. pose proof (churn_epochs_le (exit_churn E s) (exit_queue_budget E s) (v_effective_balance v) ltac:(lia)). lia. }
  set (q := exit_slot s (v_effective_balance v)) in *.
  set (s1 := set_earliest_exit_epoch q _). assert (Hv1 : nthN (validators s1) i = Some v) by exact Hv.
  rewrite (run_bind _ _ _ _ _ (mod_validator_ok s1 i _ v Hv1)).
  rewrite (run_lift _ _ _ (q + MIN_VALIDATOR_WITHDRAWABILITY_DELAY E)) by (rewrite cadd_ok; [reflexivity|]; clear Hel; ctxs Hctx; lia).
  assert (Hlt : i < lenN (validators s)) by (eapply nthN_some; eauto).
  rewrite (mod_validator_ok _ i _ (set_v_exit_epoch q v)) by (gs; apply nthN_updN_eq; exact Hlt).
  f_equal. gs. rewrite updN_updN. reflexivity.
Qed.
Lemma active_after_exit' s i v q b : nthN (validators s) i = Some v -> v_exit_epoch v = FAR_FUTURE_EPOCH -> epoch_of E s < q -> epoch_of E s < FAR_FUTURE_EPOCH ->
  b = set_validators (updN (validators s) i (exited E q v)) b -> slot b = slot s -> randao_mixes b = randao_mixes s ->
  same_duties E s b.
Proof.
  intros Hv Hf Hq He Hb Hsl Hr. split; [exact Hsl|]. split; [exact Hr|].
  assert (Hvb : validators b = updN (validators s) i (exited E q v)) by (rewrite Hb; gs; reflexivity). rewrite Hvb.
  refine (proj2 (proj2 (same_duties_upd E s i v (exited E q v) Hv _ _))); unfold exited; gs; [reflexivity|].
  unfold is_active_validator. gs. rewrite Hf. destruct (N.ltb_spec (epoch_of E s) q), (N.ltb_spec (epoch_of E s) FAR_FUTURE_EPOCH); try reflexivity; lia.
Qed.
Lemma same_duties_sum s s' : same_duties E s s' -> active_set s' (epoch_of E s') = active_set s (epoch_of E s)
  /\ effective_sum s' (active_set s' (epoch_of E s')) = effective_sum s (active_set s (epoch_of E s)).
Proof.
  intros (H1 & H2 & H3). assert (He : epoch_of E s' = epoch_of E s) by (unfold epoch_of; rewrite H1; reflexivity). rewrite He.
  assert (Ha : active_set s' (epoch_of E s) = active_set s (epoch_of E s)).
  { rewrite <- !get_active_ok. unfold get_active_validator_indices. symmetry. apply active_from_ext. eapply Forall2_impl; [|exact H3].
    cbv beta. intros; intuition congruence. }
  split; [exact Ha|]. rewrite Ha. unfold effective_sum. f_equal. apply map_ext. intros j. unfold effective_balance_of.
  apply Forall2_nth in H3 as [Hl Hn]. destruct (nthN (validators s) j) as [v|] eqn:Hv.
  - pose proof (nthN_some _ _ _ Hv) as Hlt. rewrite Hl in Hlt. destruct (nthN_lt _ _ Hlt) as [v' Hv']. rewrite Hv'. apply (Hn j v v' Hv Hv').
  - apply nthN_none in Hv. rewrite Hl in Hv. apply nthN_none in Hv. rewrite Hv. reflexivity.
Qed.
Lemma same_duties_churn s s' : same_duties E s s' -> exit_churn E s' = exit_churn E s /\ (active_balance_fits E s -> active_balance_fits E s')
  /\ earliest_exit E s' = earliest_exit E s /\ balance_churn E s' = balance_churn E s.
Proof.
  intros H. destruct (same_duties_sum s s' H) as [Ha Hs]. unfold exit_churn, active_balance_fits, balance_churn, active_balance, earliest_exit.
  rewrite Hs. split; [reflexivity|]. split; [trivial|]. split; [|reflexivity]. destruct H as [H _]. unfold epoch_of. rewrite H. reflexivity.
Qed.
Lemma exit_slot_ge s bal : exit_queue_start E s <= exit_slot s bal. Proof. unfold exit_slot. lia. Qed.
Lemma queue_start_ge s : earliest_exit E s <= exit_queue_start E s. Proof. apply N.le_max_r. Qed.
Lemma exit_electra_duties s i v : slot_small s -> nthN (validators s) i = Some v -> v_exit_epoch v = FAR_FUTURE_EPOCH ->
  same_duties E s (exit_electra_state s i v).
Proof.
  intros Hs Hv Hf. pose proof (exit_slot_ge s (v_effective_balance v)) as H1. pose proof (queue_start_ge s) as H2.
  pose proof (epoch_small E Hctx s Hs) as H3.
  apply (active_after_exit' s i v (exit_slot s (v_effective_balance v))); try reflexivity; try assumption.
  - unfold earliest_exit in H2. lia.
  - unfold FAR_FUTURE_EPOCH. pows. lia.
Qed.

(** ** sequences of exits *)
Lemma leaving_upd e e1 v1 : forall vs vs' i v, nthN vs i = Some v -> v_exit_epoch v = FAR_FUTURE_EPOCH ->
  v_exit_epoch v1 = e1 -> e1 <> FAR_FUTURE_EPOCH -> nthN vs' i = Some v1 ->
  leaving vs vs' e = (if e1 <=? e then v_effective_balance v else 0) + leaving (updN vs i v1) vs' e.
Proof.
  induction vs as [|w vs IH]; intros [|w' vs'] i v Hv Hf H1 Hne Hv'; try discriminate.
  rewrite nthN_cons in Hv, Hv'. destruct (N.eqb_spec i 0) as [->|Hi].
  - injection Hv as ->. injection Hv' as ->. cbn [updN leaving]. rewrite N.eqb_refl. cbn [leaving]. rewrite Hf, N.eqb_refl, H1.
    destruct (N.eqb_spec e1 FAR_FUTURE_EPOCH); [contradiction|]. cbn [negb andb]. destruct (e1 <=? e); lia.
  - cbn [updN]. destruct (N.eqb_spec i 0); [contradiction|]. cbn [leaving]. rewrite (IH vs' (i - 1) v) by assumption. lia.
Qed.
Lemma leaving_none e : forall vs vs', (forall j w w', nthN vs j = Some w -> nthN vs' j = Some w' -> v_exit_epoch w = FAR_FUTURE_EPOCH ->
    v_exit_epoch w' <> FAR_FUTURE_EPOCH -> e < v_exit_epoch w') -> leaving vs vs' e = 0.
Proof.
  induction vs as [|w vs IH]; intros [|w' vs'] H; try reflexivity. cbn [leaving]. rewrite IH.
  - pose proof (H 0 w w' eq_refl eq_refl) as H0. destruct (N.eqb_spec (v_exit_epoch w) FAR_FUTURE_EPOCH); [|reflexivity].
    destruct (N.eqb_spec (v_exit_epoch w') FAR_FUTURE_EPOCH); [reflexivity|]. destruct (N.leb_spec (v_exit_epoch w') e); [|reflexivity].
    specialize (H0 ltac:(assumption) ltac:(assumption)). lia.
  - intros j a a' Ha Ha'. apply (H (j + 1)); rewrite nthN_succ; assumption.
Qed.
Lemma leaving_same e vs : leaving vs vs e = 0.
Proof. apply leaving_none. intros j w w' Hw Hw'. assert (w = w') by congruence. subst. intros; contradiction. Qed.
Lemma staying_upd : forall vs i v v1, nthN vs i = Some v -> v_exit_epoch v = FAR_FUTURE_EPOCH -> v_exit_epoch v1 <> FAR_FUTURE_EPOCH ->
  staying vs = v_effective_balance v + staying (updN vs i v1).
Proof.
  induction vs as [|w vs IH]; intros i v v1 Hv Hf Hne; [discriminate|]. rewrite nthN_cons in Hv. unfold staying in *. cbn [updN filter].
  destruct (N.eqb_spec i 0) as [->|Hi].
  - injection Hv as ->. cbn [filter]. rewrite Hf, N.eqb_refl. destruct (N.eqb_spec (v_exit_epoch v1) FAR_FUTURE_EPOCH); [contradiction|]. reflexivity.
  - cbn [filter]. destruct (v_exit_epoch w =? FAR_FUTURE_EPOCH); cbn [map]; rewrite ?sumN_cons, (IH (i - 1) v v1) by assumption; lia.
Qed.
Lemma staying_le vs i v : nthN vs i = Some v -> v_exit_epoch v = FAR_FUTURE_EPOCH -> v_effective_balance v <= staying vs.
Proof.
  intros Hv Hf. rewrite (staying_upd vs i v (set_v_exit_epoch 0 v) Hv Hf); [lia|]. gs. unfold FAR_FUTURE_EPOCH. pows. lia.
Qed.
Lemma exit_capacity_after s i v : slot_small s -> nthN (validators s) i = Some v -> v_exit_epoch v = FAR_FUTURE_EPOCH ->
  let s1 := exit_electra_state s i v in
  let q := exit_slot s (v_effective_balance v) in
  exit_queue_start E s1 = q /\ exit_queue_budget E s1 = exit_capacity E s q - v_effective_balance v
  /\ forall e, q <= e -> exit_capacity E s1 e + v_effective_balance v = exit_capacity E s e.
Proof.
  intros Hs Hv Hf s1 q. destruct (same_duties_churn s s1 (exit_electra_duties s i v Hs Hv Hf)) as (Hc & _ & He & _).
  assert (Hee : earliest_exit_epoch s1 = q) by reflexivity. assert (Hbb : exit_balance_to_consume s1 = exit_capacity E s q - v_effective_balance v) by reflexivity.
  pose proof (exit_slot_ge s (v_effective_balance v)) as H1. pose proof (queue_start_ge s) as H2. fold q in H1.
  assert (Hst : exit_queue_start E s1 = q). { unfold exit_queue_start. rewrite Hee, He. lia. }
  assert (Hbu : exit_queue_budget E s1 = exit_capacity E s q - v_effective_balance v).
  { unfold exit_queue_budget. rewrite Hee, He, Hbb. destruct (N.ltb_spec q (earliest_exit E s)); [lia|reflexivity]. }
  split; [exact Hst|]. split; [exact Hbu|]. intros e Hle. unfold exit_capacity at 1. rewrite Hst, Hbu, Hc.
  pose proof (proj1 (exit_capacity_slot s (v_effective_balance v))) as Hcap. fold q in Hcap. unfold exit_capacity in *. nia.
Qed.
Lemma exit_sequence_electra l : forall s, slot_small s -> active_balance_fits E s -> exit_balance_to_consume s < 2 ^ 62 ->
  exit_queue_start E s + staying (validators s) < 2 ^ 62 -> (forall i, In i l -> i < lenN (validators s)) ->
  exists vs q b, sfor l (initiate_validator_exit_electra E) s
      = (Ok tt, set_validators vs (set_earliest_exit_epoch q (set_exit_balance_to_consume b s)))
    /\ lenN vs = lenN (validators s)
    /\ (forall e, exit_queue_start E s <= e -> leaving (validators s) vs e <= exit_capacity E s e)
    /\ (forall i v, In i l -> nthN vs i = Some v -> v_exit_epoch v <> FAR_FUTURE_EPOCH)
    /\ (forall i v, nthN (validators s) i = Some v -> ~ In i l \/ v_exit_epoch v <> FAR_FUTURE_EPOCH -> nthN vs i = Some v)
    /\ (forall i v v', nthN (validators s) i = Some v -> nthN vs i = Some v' -> v_exit_epoch v = FAR_FUTURE_EPOCH ->
          v_exit_epoch v' <> FAR_FUTURE_EPOCH ->
          exit_queue_start E s <= v_exit_epoch v' /\ v' = set_v_withdrawable_epoch (v_exit_epoch v' + MIN_VALIDATOR_WITHDRAWABILITY_DELAY E) (set_v_exit_epoch (v_exit_epoch v') v)).
Proof.
  induction l as [|i l IH]; intros s Hs Hf Hx Hq Hin.
  - exists (validators s), (earliest_exit_epoch s), (exit_balance_to_consume s).
    rewrite set_exit_balance_to_consume_id, set_earliest_exit_epoch_id, set_validators_id. split; [reflexivity|]. split; [reflexivity|].
    split; [intros e _; rewrite leaving_same; lia|]. split; [intros i v []|]. split; [auto|]. intros i v v' H1 H2. assert (v = v') by congruence. subst. contradiction.
  - destruct (nthN_lt (validators s) i (Hin i (or_introl eq_refl))) as [v Hv]. cbn [sfor].
    destruct (N.eq_dec (v_exit_epoch v) FAR_FUTURE_EPOCH) as [Hne|Hne].
    + pose proof (staying_le _ _ _ Hv Hne) as Hsl.
      rewrite (run_bind _ _ _ _ _ (initiate_exit_electra_ok s i v Hs Hf Hx ltac:(lia) ltac:(pows; lia) Hv Hne)).
      set (s1 := exit_electra_state s i v). set (q := exit_slot s (v_effective_balance v)).
      pose proof (exit_electra_duties s i v Hs Hv Hne) as Hd. fold s1 in Hd.
      destruct (same_duties_churn s s1 Hd) as (Hc & Hfit & He & _).
      destruct (exit_capacity_after s i v Hs Hv Hne) as (Hst & Hbu & Hcap). fold s1 q in Hst, Hbu, Hcap.
      pose proof (exit_churn_bounds s) as Hp.
      assert (Hqle : q <= exit_queue_start E s + v_effective_balance v).
      { unfold q, exit_slot. pose proof (churn_epochs_le (exit_churn E s) (exit_queue_budget E s) (v_effective_balance v) ltac:(lia)). lia. }
      assert (Hqne : q <> FAR_FUTURE_EPOCH) by (unfold FAR_FUTURE_EPOCH; pows; lia).
      assert (Hvs1 : validators s1 = updN (validators s) i (exited E q v)) by reflexivity.
      assert (Hlt : i < lenN (validators s)) by (eapply nthN_some; eauto).
      assert (Hvi : nthN (validators s1) i = Some (exited E q v)) by (rewrite Hvs1; apply nthN_updN_eq; exact Hlt).
      assert (Hqs : exit_queue_start E s <= q) by apply exit_slot_ge.
      destruct (IH s1) as (vs & q' & b' & H1 & H2 & H3 & H4 & H5 & H6).
      * exact Hs.
      * auto.
      * assert (exit_balance_to_consume s1 = exit_capacity E s q - v_effective_balance v) as -> by reflexivity.
        pose proof (churn_epochs_rest (exit_churn E s) (exit_queue_budget E s) (v_effective_balance v) ltac:(lia)) as Hr.
        unfold exit_capacity. unfold q, exit_slot.
        replace (exit_queue_start E s + churn_epochs (exit_churn E s) (exit_queue_budget E s) (v_effective_balance v) - exit_queue_start E s)
          with (churn_epochs (exit_churn E s) (exit_queue_budget E s) (v_effective_balance v)) by lia.
        eapply N.le_lt_trans; [exact Hr|]. unfold exit_queue_budget. destruct (earliest_exit_epoch s <? earliest_exit E s); pows; lia.
      * rewrite Hst, Hvs1. pose proof (staying_upd (validators s) i v (exited E q v) Hv Hne ltac:(unfold exited; gs; exact Hqne)). lia.
      * intros j Hj. rewrite Hvs1, lenN_updN. apply Hin. right; exact Hj.
      * exists vs, q', b'. split; [rewrite H1; reflexivity|]. split; [rewrite H2, Hvs1, lenN_updN; reflexivity|].
        assert (Hvf : nthN vs i = Some (exited E q v)) by (apply H5; [exact Hvi|right; unfold exited; gs; exact Hqne]).
        split; [|split; [|split]].
        -- intros e Hle. rewrite (leaving_upd e q (exited E q v) (validators s) vs i v Hv Hne ltac:(unfold exited; gs; reflexivity) Hqne Hvf).
           rewrite <- Hvs1. destruct (N.leb_spec q e).
           ++ specialize (H3 e ltac:(lia)). specialize (Hcap e ltac:(lia)). lia.
           ++ rewrite leaving_none; [lia|]. intros j w w' Hw Hw' Ha Hb. destruct (H6 j w w' Hw Hw' Ha Hb) as [Hg _]. lia.
        -- intros j w [<-|Hj] Hw; [|eapply H4; eauto]. assert (w = exited E q v) as -> by congruence. unfold exited. gs. exact Hqne.
        -- intros j w Hw Hor. apply H5.
           ++ rewrite Hvs1, nthN_updN_ne; [exact Hw|]. intros <-. assert (w = v) by congruence. subst w.
              destruct Hor as [Hn'|Hn']; [apply Hn'; left; reflexivity|congruence].
           ++ destruct Hor as [Hn'|Hn']; [left; intros Hj; apply Hn'; right; exact Hj|right; exact Hn'].
        -- intros j w w' Hw Hw' Ha Hb. destruct (N.eq_dec i j) as [<-|Hij].
           ++ assert (w' = exited E q v) as -> by congruence. assert (w = v) as -> by congruence. unfold exited at 1. gs. split; [exact Hqs|reflexivity].
           ++ destruct (H6 j w w') as [Hg Hr]; try assumption; [rewrite Hvs1, nthN_updN_ne by exact Hij; exact Hw|]. split; [lia|exact Hr].
    + rewrite (run_bind _ _ _ _ _ (initiate_exit_electra_noop s i v Hv Hne)).
      destruct (IH s) as (vs & q & b & H1 & H2 & H3 & H4 & H5 & H6); auto; [intros; apply Hin; right; assumption|].
      exists vs, q, b. split; [exact H1|]. split; [exact H2|]. split; [exact H3|]. split; [|split; [|exact H6]].
      * intros j w [<-|Hj] Hw; [|eapply H4; eauto]. assert (nthN vs i = Some v) by (apply H5; auto). congruence.
      * intros j w Hw Hor. apply H5; [exact Hw|]. destruct Hor as [Hn'|Hn']; [left; intros Hj; apply Hn'; right; exact Hj|right; exact Hn'].
Qed.
End WithEnv.
