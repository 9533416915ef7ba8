(** * Proofs about the periodic updates of epoch processing (proof file; no model definitions) *)
From Verif Require Import Base BaseLemmas Types Ctx Env Helpers HelpersAltair HelpersElectra Block Epoch Transition StLemmas Frame
  SpecCommon SpecShuffle SpecHelpers SpecOps SpecElectra SpecAtt SpecFinality SpecSlots SpecEpoch
  ShuffleProofs HelperProofs HelperProofs2 OpsProofs ElectraProofs SlashProofs AttProofs FrameProofs FinalityProofs EpochProofs RewardProofs.
From Coq Require Import Sorted Permutation.

(** the fields the periodic updates own *)
Record same_periodic (s s' : BeaconState) : Prop := mkSP {
  sp_slot : slot s' = slot s; sp_br : block_roots s' = block_roots s; sp_sr : state_roots s' = state_roots s;
  sp_votes : eth1_data_votes s' = eth1_data_votes s; sp_sl : slashings s' = slashings s; sp_mix : randao_mixes s' = randao_mixes s;
  sp_hr : historical_roots s' = historical_roots s; sp_hs : historical_summaries s' = historical_summaries s;
  sp_pa : previous_epoch_attestations s' = previous_epoch_attestations s; sp_ca : current_epoch_attestations s' = current_epoch_attestations s;
  sp_pp : previous_epoch_participation s' = previous_epoch_participation s; sp_cp : current_epoch_participation s' = current_epoch_participation s;
  sp_cs : current_sync_committee s' = current_sync_committee s; sp_ns : next_sync_committee s' = next_sync_committee s;
  sp_n : lenN (validators s') = lenN (validators s) }.
Lemma sp_refl s : same_periodic s s. Proof. constructor; reflexivity. Qed.
Lemma sp_trans a b c : same_periodic a b -> same_periodic b c -> same_periodic a c.
Proof. intros [] []. constructor; congruence. Qed.
Create HintDb spdb.
Ltac sp1 :=
  match goal with
  | |- forall _, _ => intro
  | |- pres same_periodic (sbind _ _) => apply (pres_bind same_periodic sp_trans)
  | |- pres same_periodic (rd _) => apply (pres_rd same_periodic sp_refl)
  | |- pres same_periodic (lift _) => apply (pres_lift same_periodic sp_refl)
  | |- pres same_periodic (sret _) => apply (pres_ret same_periodic sp_refl)
  | |- pres same_periodic (swhen _ _) => apply (pres_when same_periodic sp_refl)
  | |- pres same_periodic (sfor _ _) => apply (pres_for same_periodic sp_refl sp_trans)
  | |- pres same_periodic (sfold _ _ _) => apply (pres_fold same_periodic sp_refl sp_trans)
  | |- pres same_periodic (match ?x with _ => _ end) => destruct x
  | |- pres same_periodic (md _) => apply pres_md; intro; cbv beta; (constructor; gs; rewrite ?lenN_updN; reflexivity)
  | |- pres same_periodic _ => solve [eauto with spdb]
  end.
Ltac spt := repeat sp1.
Section Sp.
Variables (E : Env) (f : Fork).
Lemma sp_inc i d : pres same_periodic (increase_balance E i d). Proof. unfold increase_balance. spt. Qed.
Lemma sp_dec i d : pres same_periodic (decrease_balance E i d). Proof. unfold decrease_balance. spt. Qed.
Lemma sp_mod i g : pres same_periodic (mod_validator i g). Proof. unfold mod_validator. spt. Qed.
Hint Resolve sp_inc sp_dec sp_mod : spdb.
Lemma sp_churn b : pres same_periodic (compute_exit_epoch_and_update_churn E b). Proof. unfold compute_exit_epoch_and_update_churn. spt. Qed.
Hint Resolve sp_churn : spdb.
Lemma sp_exit0 i : pres same_periodic (initiate_validator_exit E i). Proof. unfold initiate_validator_exit. spt. Qed.
Lemma sp_exit1 i : pres same_periodic (initiate_validator_exit_electra E i). Proof. unfold initiate_validator_exit_electra. spt. Qed.
Hint Resolve sp_exit0 sp_exit1 : spdb.
Lemma sp_exit i : pres same_periodic (initiate_exit E f i). Proof. unfold initiate_exit. spt. Qed.
Hint Resolve sp_exit : spdb.
Lemma sp_excess i : pres same_periodic (queue_excess_active_balance E i). Proof. unfold queue_excess_active_balance. spt. Qed.
Hint Resolve sp_excess : spdb.
Lemma sp_switch i : pres same_periodic (switch_to_compounding_validator E i). Proof. unfold switch_to_compounding_validator. spt. Qed.
Hint Resolve sp_switch : spdb.
Lemma sp_just : pres same_periodic (process_justification_and_finalization E f).
Proof. unfold process_justification_and_finalization, weigh_justification_and_finalization, justify, finalize_if. spt. Qed.
Lemma sp_inact : pres same_periodic (process_inactivity_updates E). Proof. unfold process_inactivity_updates, inactivity_update_step. spt. Qed.
Lemma sp_rew : pres same_periodic (process_rewards_and_penalties E f). Proof. unfold process_rewards_and_penalties, apply_deltas. spt. Qed.
Lemma sp_reg : pres same_periodic (process_registry_updates E f). Proof. unfold process_registry_updates, registry_step. spt. Qed.
Lemma sp_slash : pres same_periodic (process_slashings E f). Proof. unfold process_slashings, slashings_step. spt. Qed.
Lemma sp_pdl : forall l a p c, pres same_periodic (pending_deposits_loop E l a p c).
Proof. induction l as [|d l IH]; intros a p c; cbn [pending_deposits_loop]; spt. Qed.
Hint Resolve sp_pdl : spdb.
Lemma sp_pd : pres same_periodic (process_pending_balance_deposits E). Proof. unfold process_pending_balance_deposits. spt. Qed.
Lemma sp_pcl : forall l c, pres same_periodic (pending_consolidations_loop E l c).
Proof. induction l as [|d l IH]; intros c; cbn [pending_consolidations_loop]; spt. Qed.
Hint Resolve sp_pcl : spdb.
Lemma sp_pc : pres same_periodic (process_pending_consolidations E). Proof. unfold process_pending_consolidations. spt. Qed.
Lemma sp_eff : pres same_periodic (process_effective_balance_updates E f). Proof. unfold process_effective_balance_updates, effective_balance_step. spt. Qed.
End Sp.

Section WithEnv.
Variable E : Env.
Hypothesis Hctx : ctx_sane E.

Lemma pres_run {A} (m : St BeaconState A) s r s' : pres same_periodic m -> m s = (r, s') -> same_periodic s s'.
Proof. intros H Hm. specialize (H s). rewrite Hm in H. exact H. Qed.
Lemma slashings_reset_inv s s' : slot_small s -> process_slashings_reset E s = (Ok tt, s') ->
  s' = set_slashings (updN (slashings s) ((epoch_of E s + 1) mod EPOCHS_PER_SLASHINGS_VECTOR E) 0) s.
Proof.
  intros Hs H. unfold process_slashings_reset in H. apply sbind_ok_inv in H as (i & t & H1 & H). apply inv_rd in H1 as [H1 ->].
  rewrite next_epoch_ok in H1 by assumption. cbn [rbind] in H1. rewrite umod_ok in H1 by (unfold ctx_sane in Hctx; lia). apply Ok_inj in H1. subst i.
  apply sbind_ok_inv in H as (u & t & H1 & H). apply inv_rd in H1 as [_ ->]. apply inv_md in H. exact H.
Qed.
Lemma randao_reset_inv s s' : slot_small s -> process_randao_mixes_reset E s = (Ok tt, s') ->
  exists m, nthN (randao_mixes s) (epoch_of E s mod EPOCHS_PER_HISTORICAL_VECTOR E) = Some m
    /\ s' = set_randao_mixes (updN (randao_mixes s) ((epoch_of E s + 1) mod EPOCHS_PER_HISTORICAL_VECTOR E) m) s.
Proof.
  intros Hs H. assert (Hp : EPOCHS_PER_HISTORICAL_VECTOR E <> 0) by (unfold ctx_sane in Hctx; lia).
  unfold process_randao_mixes_reset in H. apply sbind_ok_inv in H as (r & t & H1 & H). apply inv_rd in H1 as [H1 ->]. apply inv_md in H.
  rewrite current_epoch_ok in H1 by exact Hctx. cbn [rbind] in H1. rewrite next_epoch_ok in H1 by assumption. cbn [rbind] in H1. rewrite umod_ok in H1 by exact Hp. cbn [rbind] in H1.
  apply rbind_ok_inv in H1 as (m & Hm & H1). apply rbind_ok_inv in H1 as (x & _ & H1). apply Ok_inj in H1. subst r.
  unfold get_randao_mix in Hm. rewrite umod_ok in Hm by exact Hp. cbn [rbind] in Hm. apply idx_ok in Hm. exists m. split; [exact Hm|exact H].
Qed.

(** what [process_epoch] does to the fields above.  [t]: the state right before the two committee fields are updated *)
Record periodic_effect (f : Fork) (s s' : BeaconState) : Prop := mkPE {
  pe_slot : slot s' = slot s;
  pe_votes : eth1_data_votes s' = if epoch_ends_period E s (EPOCHS_PER_ETH1_VOTING_PERIOD E) then [] else eth1_data_votes s;
  pe_slash : slashings s' = updN (slashings s) ((epoch_of E s + 1) mod EPOCHS_PER_SLASHINGS_VECTOR E) 0;
  pe_mix : exists m, nthN (randao_mixes s) (epoch_of E s mod EPOCHS_PER_HISTORICAL_VECTOR E) = Some m
    /\ randao_mixes s' = updN (randao_mixes s) ((epoch_of E s + 1) mod EPOCHS_PER_HISTORICAL_VECTOR E) m;
  pe_hist : if epoch_ends_period E s (SLOTS_PER_HISTORICAL_ROOT E / SLOTS_PER_EPOCH E)
    then exists br sr, htr E (ORoots (block_roots s)) = Some br /\ htr E (ORoots (state_roots s)) = Some sr
      /\ (if fork_le Capella f
          then historical_roots s' = historical_roots s /\ historical_summaries s' = historical_summaries s ++ [mkHistSum br sr]
          else historical_summaries s' = historical_summaries s
               /\ exists root, htr E (OHistoricalSummary (mkHistSum br sr)) = Some root /\ historical_roots s' = historical_roots s ++ [root])
    else historical_roots s' = historical_roots s /\ historical_summaries s' = historical_summaries s;
  pe_part : match f with
    | Phase0 => previous_epoch_attestations s' = current_epoch_attestations s /\ current_epoch_attestations s' = []
    | _ => previous_epoch_participation s' = current_epoch_participation s /\ current_epoch_participation s' = repeatN 0 (lenN (validators s'))
    end;
  pe_sync : match f with
    | Phase0 => True
    | _ => if epoch_ends_period E s (EPOCHS_PER_SYNC_COMMITTEE_PERIOD E)
           then current_sync_committee s' = next_sync_committee s /\ get_next_sync_committee E s' = Ok (next_sync_committee s')
           else current_sync_committee s' = current_sync_committee s /\ next_sync_committee s' = next_sync_committee s
    end }.
Lemma next_committee_ext s s' : slot s' = slot s -> randao_mixes s' = randao_mixes s -> validators s' = validators s ->
  get_next_sync_committee E s' = get_next_sync_committee E s.
Proof.
  intros H1 H2 H3. unfold get_next_sync_committee, get_next_sync_committee_indices, get_current_epoch, get_seed, get_randao_mix. rewrite H1, H2, H3.
  assert (Hl : forall n seed act i acc, sync_loop E n s' seed act i acc = sync_loop E n s seed act i acc).
  { induction n as [|n IH]; intros; cbn [sync_loop]; [reflexivity|]. unfold sync_candidate. rewrite H3. destruct (_ <=? _); [reflexivity|].
    match goal with |- rbind ?m _ = _ => destruct m; cbn [rbind]; try reflexivity end. apply IH. }
  unfold get_active_validator_indices. rewrite H3.
  match goal with |- rbind ?m _ = _ => assert (Hm : m = get_next_sync_committee_indices E s) end.
  { unfold get_next_sync_committee_indices, get_current_epoch, get_seed, get_randao_mix, get_active_validator_indices.
    destruct (compute_epoch_at_slot E (slot s)); cbn [rbind]; try reflexivity. destruct (add E _ 1); cbn [rbind]; try reflexivity.
    match goal with |- rbind ?m _ = _ => destruct m; cbn [rbind]; try reflexivity end. apply Hl. }
  rewrite Hm. reflexivity.
Qed.
Lemma epoch_periodic f s s' : ctx_sane_epoch E -> slot_small s -> process_epoch E f s = (Ok tt, s') -> periodic_effect f s s'.
Proof.
  intros Hce Hs H. unfold process_epoch in H.
  apply sbind_ok_inv in H as ([] & s1 & H1 & H). apply sbind_ok_inv in H as ([] & s2 & H2 & H). apply sbind_ok_inv in H as ([] & s3 & H3 & H).
  apply sbind_ok_inv in H as ([] & s4 & H4 & H). apply sbind_ok_inv in H as ([] & s5 & H5 & H). apply sbind_ok_inv in H as ([] & s6 & H6 & H).
  apply sbind_ok_inv in H as ([] & s7 & H7 & H). apply sbind_ok_inv in H as ([] & s8 & H8 & H). apply sbind_ok_inv in H as ([] & s9 & H9 & H).
  apply sbind_ok_inv in H as ([] & s10 & H10 & H). apply sbind_ok_inv in H as ([] & s11 & H11 & H).
  assert (P5 : same_periodic s s5).
  { eapply sp_trans; [exact (pres_run _ _ _ _ (sp_just E f) H1)|]. eapply sp_trans; [eapply (pres_run _ _ _ _ _ H2)|].
    eapply sp_trans; [exact (pres_run _ _ _ _ (sp_rew E f) H3)|]. eapply sp_trans; [exact (pres_run _ _ _ _ (sp_reg E f) H4)|].
    exact (pres_run _ _ _ _ (sp_slash E f) H5).
    Unshelve. apply (pres_when same_periodic sp_refl). apply sp_inact. }
  assert (HE : forall t, slot t = slot s -> slot_small t /\ epoch_of E t = epoch_of E s) by (intros t Ht; unfold slot_small, epoch_of in *; rewrite Ht; auto).
  destruct (HE s5 (sp_slot _ _ P5)) as [Hs5 He5]. rewrite eth1_reset_run in H6 by assumption. injection H6 as H6.
  assert (Hee : forall t, epoch_of E t = epoch_of E s -> forall p, epoch_ends_period E t p = epoch_ends_period E s p) by (intros t Ht p; unfold epoch_ends_period; rewrite Ht; reflexivity).
  rewrite (Hee s5 He5) in H6.
  set (E1 := epoch_ends_period E s (EPOCHS_PER_ETH1_VOTING_PERIOD E)) in *.
  assert (P6 : same_periodic (if E1 then set_eth1_data_votes [] s else s) s6).
  { rewrite <- H6. destruct P5. destruct E1; constructor; gs; assumption || reflexivity. }
  assert (P8 : same_periodic (if E1 then set_eth1_data_votes [] s else s) s8).
  { eapply sp_trans; [exact P6|]. eapply sp_trans; [eapply (pres_run _ _ _ _ _ H7)|exact (pres_run _ _ _ _ (sp_eff E f) H8)].
    Unshelve. apply (pres_when same_periodic sp_refl). apply (pres_bind same_periodic sp_trans); [apply sp_pd|intro; apply sp_pc]. }
  clear H1 H2 H3 H4 H5 H6 H7 H8 P5 P6 Hs5 He5 s1 s2 s3 s4 s5 s6 s7.
  destruct P8 as [Q1 Q2 Q3 Q4 Q5 Q6 Q7 Q8 Q9 Q10 Q11 Q12 Q13 Q14 Q15].
  assert (R1 : slot s8 = slot s) by (destruct E1; exact Q1). assert (R2 : block_roots s8 = block_roots s) by (destruct E1; exact Q2).
  assert (R3 : state_roots s8 = state_roots s) by (destruct E1; exact Q3). assert (R5 : slashings s8 = slashings s) by (destruct E1; exact Q5).
  assert (R6 : randao_mixes s8 = randao_mixes s) by (destruct E1; exact Q6). assert (R7 : historical_roots s8 = historical_roots s) by (destruct E1; exact Q7).
  assert (R8 : historical_summaries s8 = historical_summaries s) by (destruct E1; exact Q8).
  assert (R9 : current_epoch_attestations s8 = current_epoch_attestations s) by (destruct E1; exact Q10).
  assert (R10 : current_epoch_participation s8 = current_epoch_participation s) by (destruct E1; exact Q12).
  assert (R11 : current_sync_committee s8 = current_sync_committee s) by (destruct E1; exact Q13). assert (R12 : next_sync_committee s8 = next_sync_committee s) by (destruct E1; exact Q14).
  assert (R4 : eth1_data_votes s8 = if E1 then [] else eth1_data_votes s) by (destruct E1; exact Q4).
  clear Q1 Q2 Q3 Q4 Q5 Q6 Q7 Q8 Q9 Q10 Q11 Q12 Q13 Q14 Q15.
  destruct (HE s8 R1) as [Hs8 He8]. apply slashings_reset_inv in H9; [|exact Hs8]. rewrite He8, R5 in H9.
  assert (Hs9 : slot s9 = slot s) by (rewrite H9; exact R1). destruct (HE s9 Hs9) as [Hsm9 He9].
  apply randao_reset_inv in H10; [|exact Hsm9]. destruct H10 as (m & Hm & H10). rewrite He9 in Hm, H10.
  assert (Hmix9 : randao_mixes s9 = randao_mixes s) by (rewrite H9; exact R6). rewrite Hmix9 in Hm, H10.
  assert (Hs10 : slot s10 = slot s) by (rewrite H10; exact Hs9). destruct (HE s10 Hs10) as [Hsm10 He10].
  pose proof (historical_run E Hctx f s10 s11 Hsm10 Hce H11) as [Ha Hb]. rewrite (Hee s10 He10) in Ha, Hb.
  assert (Hbr : block_roots s10 = block_roots s) by (rewrite H10, H9; exact R2). assert (Hsr : state_roots s10 = state_roots s) by (rewrite H10, H9; exact R3).
  assert (Hhr : historical_roots s10 = historical_roots s) by (rewrite H10, H9; exact R7). assert (Hhs : historical_summaries s10 = historical_summaries s) by (rewrite H10, H9; exact R8).
  rewrite Hbr, Hsr, Hhr, Hhs in Hb.
  set (E2 := epoch_ends_period E s (SLOTS_PER_HISTORICAL_ROOT E / SLOTS_PER_EPOCH E)) in *.
  assert (K : exists hr hs, s11 = set_historical_roots hr (set_historical_summaries hs s10)
     /\ (if E2 then exists br sr, htr E (ORoots (block_roots s)) = Some br /\ htr E (ORoots (state_roots s)) = Some sr
      /\ (if fork_le Capella f then hr = historical_roots s /\ hs = historical_summaries s ++ [mkHistSum br sr]
          else hs = historical_summaries s /\ exists root, htr E (OHistoricalSummary (mkHistSum br sr)) = Some root /\ hr = historical_roots s ++ [root])
      else hr = historical_roots s /\ hs = historical_summaries s)).
  { destruct E2.
    - destruct (Hb eq_refl) as (br & sr & B & S & Hc). destruct (fork_le Capella f).
      + exists (historical_roots s), (historical_summaries s ++ [mkHistSum br sr]). split; [rewrite Hc, <- Hhr; exact (eq_sym (set_historical_roots_id (set_historical_summaries _ s10)))|]. exists br, sr. auto.
      + destruct Hc as (root & Hr & Hc). exists (historical_roots s ++ [root]), (historical_summaries s).
        split; [rewrite Hc, <- Hhs, set_historical_summaries_id; reflexivity|]. exists br, sr. eauto 6.
    - exists (historical_roots s), (historical_summaries s). rewrite (Ha eq_refl). split; [|auto]. rewrite <- Hhr, <- Hhs, set_historical_summaries_id, set_historical_roots_id. reflexivity. }
  clear Ha Hb H11. destruct K as (hr & hs & H11 & K).
  assert (Hall : slot s11 = slot s /\ eth1_data_votes s11 = (if E1 then [] else eth1_data_votes s)
    /\ slashings s11 = updN (slashings s) ((epoch_of E s + 1) mod EPOCHS_PER_SLASHINGS_VECTOR E) 0
    /\ randao_mixes s11 = updN (randao_mixes s) ((epoch_of E s + 1) mod EPOCHS_PER_HISTORICAL_VECTOR E) m
    /\ historical_roots s11 = hr /\ historical_summaries s11 = hs
    /\ current_epoch_attestations s11 = current_epoch_attestations s /\ current_epoch_participation s11 = current_epoch_participation s
    /\ current_sync_committee s11 = current_sync_committee s /\ next_sync_committee s11 = next_sync_committee s).
  { rewrite H11, H10, H9. gs. rewrite R1, R4, R9, R10, R11, R12. auto 12. }
  clear H9 H10 H11 R1 R2 R3 R4 R5 R6 R7 R8 R9 R10 R11 R12. destruct Hall as (T1 & T2 & T3 & T4 & T5 & T6 & T7 & T8 & T9 & T10).
  assert (Hk : if E2 then exists br sr, htr E (ORoots (block_roots s)) = Some br /\ htr E (ORoots (state_roots s)) = Some sr
      /\ (if fork_le Capella f then historical_roots s11 = historical_roots s /\ historical_summaries s11 = historical_summaries s ++ [mkHistSum br sr]
          else historical_summaries s11 = historical_summaries s /\ exists root, htr E (OHistoricalSummary (mkHistSum br sr)) = Some root /\ historical_roots s11 = historical_roots s ++ [root])
      else historical_roots s11 = historical_roots s /\ historical_summaries s11 = historical_summaries s) by (rewrite T5, T6; exact K).
  destruct (Fork_eq_dec f Phase0) as [->|Hf].
  - unfold process_participation_record_updates in H. apply inv_md in H. rewrite T7 in H. subst s'. constructor; gs; eauto.
  - assert (H' : sbind process_participation_flag_updates (fun _ => process_sync_committee_updates E) s11 = (Ok tt, s')) by (destruct f; try exact H; contradiction).
    clear H. rename H' into H. unfold process_participation_flag_updates in H. apply sbind_ok_inv in H as (u & s12 & H & H12). apply inv_md in H. rewrite T8 in H.
    assert (Hs12 : slot s12 = slot s) by (rewrite H; exact T1). destruct (HE s12 Hs12) as [Hsm12 He12].
    unfold process_sync_committee_updates in H12. apply sbind_ok_inv in H12 as (x & t & Hx & H12). apply inv_rd in Hx as [Hx ->].
    rewrite next_epoch_ok in Hx by assumption. cbn [rbind] in Hx. rewrite umod_ok in Hx by (destruct Hce as (_&_&_&_&Hq&_); lia). apply Ok_inj in Hx. rewrite He12 in Hx. subst x.
    change ((epoch_of E s + 1) mod EPOCHS_PER_SYNC_COMMITTEE_PERIOD E =? 0) with (epoch_ends_period E s (EPOCHS_PER_SYNC_COMMITTEE_PERIOD E)) in H12.
    destruct (epoch_ends_period E s (EPOCHS_PER_SYNC_COMMITTEE_PERIOD E)) eqn:Hper; cbn [swhen] in H12.
    + apply sbind_ok_inv in H12 as (c & t & Hc & H12). apply inv_rd in Hc as [Hc ->]. apply inv_md in H12. rewrite H in H12. subst s'.
      assert (Hps : current_sync_committee (set_current_sync_committee (next_sync_committee s12) (set_next_sync_committee c s12)) = next_sync_committee s) by (rewrite H; gs; exact T10).
      assert (Hnx : get_next_sync_committee E (set_current_sync_committee (next_sync_committee s12) (set_next_sync_committee c s12)) = Ok c) by (rewrite <- Hc; apply next_committee_ext; reflexivity).
      rewrite H in Hps, Hnx.
      constructor; gs; try assumption; eauto.
      * destruct f; try contradiction; split; reflexivity.
      * rewrite Hper. destruct f; try contradiction; (split; [exact T10|exact Hnx]).
    + apply inv_ret in H12 as [_ ->]. rewrite H. constructor; gs; try assumption; eauto.
      * destruct f; try contradiction; split; reflexivity.
      * rewrite Hper. destruct f; try contradiction; (split; assumption).
Qed.

(** ** C35: the computed committee *)
Hypothesis Hwf : hash_wf (hash E).
Lemma sync_loop_spec s A seed : effective_bounded s -> A <> [] -> lenN A <= 2 ^ 40 -> (forall i, In i A -> i < lenN (validators s)) ->
  forall n r acc l, r + N.of_nat n < 2 ^ 60 -> lenN acc <= SYNC_COMMITTEE_SIZE E -> acc = flat_map (accepted_in E s A seed) (rangeN r) ->
  sync_loop E n s seed A r acc = Ok l ->
  lenN l = SYNC_COMMITTEE_SIZE E /\ exists rounds, l = flat_map (accepted_in E s A seed) (rangeN rounds).
Proof.
  intros Heb Hne Hlen Hin. assert (Hpos : 0 < lenN A) by (destruct A; [contradiction|rewrite lenN_cons; lia]).
  assert (Hround : SHUFFLE_ROUND_COUNT E <= 256 /\ 0 < SHUFFLE_ROUND_COUNT E) by (ctxs Hctx; lia).
  induction n as [|n IH]; intros r acc l Hr Hacc Heq H; cbn [sync_loop] in H.
  - destruct (N.leb_spec (SYNC_COMMITTEE_SIZE E) (lenN acc)); [|discriminate]. apply Ok_inj in H. subst l. split; [lia|eauto].
  - destruct (N.leb_spec (SYNC_COMMITTEE_SIZE E) (lenN acc)).
    + apply Ok_inj in H. subst l. split; [lia|eauto].
    + apply rbind_ok_inv in H as ([c b] & Hc & H). cbn [fst snd] in H. unfold sync_candidate in Hc. rewrite umod_ok in Hc by lia. cbn [rbind] in Hc.
      rewrite compute_shuffled_index_ok in Hc; [|exact Hwf|pows; lia|apply N.mod_lt; lia]. cbn [rbind] in Hc.
      apply rbind_ok_inv in Hc as (c0 & Hc0 & Hc). apply idx_ok in Hc0. rewrite perm_spec in Hc0 by (exact Hlen || apply Hround || (apply N.mod_lt; lia)).
      rewrite idx_hash in Hc by (assumption || (apply N.mod_lt; lia)). cbn [rbind] in Hc.
      destruct (nthN_lt (validators s) c0 (Hin c0 (nthN_In _ _ _ Hc0))) as [v Hv]. rewrite (proj2 (idx_ok _ _ _) Hv) in Hc. cbn [rbind] in Hc.
      pose proof (Heb v (nthN_In _ _ _ Hv)) as Hb. unfold mul in Hc. rewrite umul_ok in Hc by (pows; lia). cbn [rbind] in Hc.
      set (by_ := nth (N.to_nat (r mod 32)) (hash E (seed ++ to_le 8 (r / 32))) 0) in *.
      assert (Hby : by_ < 256).
      { unfold by_. destruct (Hwf (seed ++ to_le 8 (r / 32))) as [Hl Hf]. rewrite Forall_forall in Hf. apply Hf. apply nth_In. pose proof (N.mod_lt r 32). lia. }
      rewrite umul_ok in Hc by (ctxs Hctx; pows; nia). cbn [rbind] in Hc. apply Ok_inj in Hc. injection Hc as <- <-.
      assert (Hacp : accepted_in E s A seed r = if MAX_EFFECTIVE_BALANCE E * by_ <=? v_effective_balance v * 255 then [c0] else []).
      { unfold accepted_in, proposer_candidate. rewrite Hc0. rewrite (effective_balance_of_some s c0 v Hv). reflexivity. }
      apply (IH (r + 1) _ l) in H; [exact H|lia| |].
      * destruct (_ <=? _); [rewrite lenN_app, lenN_cons, lenN_nil; lia|lia].
      * rewrite rangeN_succ, flat_map_app. cbn [flat_map]. rewrite app_nil_r, Hacp, <- Heq. destruct (_ <=? _); [reflexivity|rewrite app_nil_r; reflexivity].
Qed.
Lemma next_committee_spec s c : state_shape E s -> slot_small s -> effective_bounded s -> N.of_nat (fuel E) < 2 ^ 60 -> 0 < SYNC_COMMITTEE_SIZE E ->
  get_next_sync_committee E s = Ok c -> exists l, sync_members E s l /\ committee_of_members E s l c /\ forall i, In i l -> In i (active_set s (epoch_of E s + 1)).
Proof.
  intros Hsh Hs Heb Hfu Hsz H. pose proof (epoch_small E Hctx s Hs) as Hep. unfold get_next_sync_committee in H. apply rbind_ok_inv in H as (l & Hl & H).
  apply rbind_ok_inv in H as (pks & Hp & H). apply rbind_ok_inv in H as (agg & Ha & H). apply Ok_inj in H. subst c.
  unfold get_next_sync_committee_indices in Hl. rewrite current_epoch_ok in Hl by exact Hctx. cbn [rbind] in Hl. unfold add in Hl. rewrite uadd_ok in Hl by (pows; lia). cbn [rbind] in Hl.
  destruct (seed_ok E Hctx s (epoch_of E s + 1) DSyncCommittee Hsh ltac:(pows; lia)) as (mix & Hm & Hseed). rewrite Hseed in Hl. cbn [rbind] in Hl. rewrite get_active_ok in Hl.
  set (A := active_set s (epoch_of E s + 1)) in *. set (seed := hash E (domain_bytes DSyncCommittee ++ to_le 8 (epoch_of E s + 1) ++ mix)) in *.
  assert (Hin : forall i, In i A -> i < lenN (validators s)) by apply active_in_range.
  assert (HAl : lenN A <= 2 ^ 40). { destruct Hsh as (_&_&_&_&_&Hv). eapply N.le_trans; [apply active_set_le|exact Hv]. }
  assert (HA : A <> []).
  { intros HA. rewrite HA in Hl. destruct (fuel E) as [|n]; cbn [sync_loop] in Hl.
    - change (lenN (@nil N)) with 0 in Hl. destruct (N.leb_spec (SYNC_COMMITTEE_SIZE E) 0); [lia|discriminate].
    - change (lenN (@nil N)) with 0 in Hl. destruct (N.leb_spec (SYNC_COMMITTEE_SIZE E) 0); [lia|]. unfold sync_candidate in Hl. change (lenN (@nil N)) with 0 in Hl. discriminate. }
  destruct (sync_loop_spec s A seed Heb HA HAl Hin (fuel E) 0 [] l ltac:(lia) ltac:(change (lenN (@nil N)) with 0; lia) eq_refl Hl) as (L1 & rounds & L2).
  exists l. split; [|split].
  - exists seed, rounds. split; [exists mix; split; [exact Hm|reflexivity]|]. split; [exact L2|exact L1].
  - split.
    + cbn [sc_public_keys]. clear - Hp. revert pks Hp. induction l as [|i l IH]; intros pks Hp; cbn [rmap] in Hp.
      * apply Ok_inj in Hp. subst. reflexivity.
      * apply rbind_ok_inv in Hp as (y & Hy & Hp). apply rbind_ok_inv in Hp as (ys & Hys & Hp). apply Ok_inj in Hp. subst pks.
        apply rbind_ok_inv in Hy as (v & Hv & Hy). apply Ok_inj in Hy. subst y. apply idx_ok in Hv. cbn [map]. unfold key_of at 1. rewrite Hv. cbn [option_map]. f_equal. apply IH. exact Hys.
    + cbn [sc_public_keys sc_aggregate_public_key]. unfold eth_aggregate_public_keys in Ha. destruct pks as [|p ps]; [discriminate|]. unfold ok_or in Ha.
      destruct (aggregate_pks E (p :: ps)); [|discriminate]. apply Ok_inj in Ha. subst. reflexivity.
  - intros i Hi. rewrite L2 in Hi. apply in_flat_map in Hi as (r & _ & Hi). unfold accepted_in, proposer_candidate in Hi.
    match type of Hi with context [nthN A ?x] => destruct (nthN A x) as [j|] eqn:Hj end; [|destruct Hi].
    destruct (_ <=? _); [|destruct Hi]. destruct Hi as [<-|[]]. eapply nthN_In; eauto.
Qed.
End WithEnv.
