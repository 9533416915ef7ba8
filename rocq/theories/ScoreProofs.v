(** * The inactivity scores along a chain (proof file; no model definitions) *)
From Verif Require Import Base BaseLemmas Types Ctx Env Helpers HelpersAltair HelpersElectra Block Epoch Transition Upgrade StLemmas
  SpecCommon SpecHelpers SpecEpoch SpecFinality SpecScore HelperProofs HelperProofs2 EpochProofs BlockProofs SlotProofs CrashProofs DepositProofs DebitEpoch.

(** no score rises *)
Definition fades (s t : BeaconState) : Prop := forall i, score t i <= score s i.
Lemma fades_refl s : fades s s. Proof. intros i. apply N.le_refl. Qed.
Lemma fades_trans a b c : fades a b -> fades b c -> fades a c. Proof. intros A B i. specialize (A i). specialize (B i). lia. Qed.
Lemma fades_new s t : inactivity_scores t = inactivity_scores s ++ [0] -> fades s t.
Proof.
  intros Ht i. unfold score. rewrite Ht. destruct (N.ltb_spec i (lenN (inactivity_scores s))) as [H|H]; [rewrite nthN_app_l by exact H; lia|].
  rewrite nthN_app_r by exact H. rewrite nthN_cons. destruct (_ =? 0); [lia|]. cbn. lia.
Qed.
Create HintDb fddb.
Ltac fd1 :=
  match goal with
  | |- forall _, _ => intro
  | |- pres fades (sbind _ _) => apply (pres_bind fades fades_trans)
  | |- pres fades (rd _) => apply (pres_rd fades fades_refl)
  | |- pres fades (lift _) => apply (pres_lift fades fades_refl)
  | |- pres fades (sret _) => apply (pres_ret fades fades_refl)
  | |- pres fades (swhen _ _) => apply (pres_when fades fades_refl)
  | |- pres fades (sfor _ _) => apply (pres_for fades fades_refl fades_trans)
  | |- pres fades (sfold _ _ _) => apply (pres_fold fades fades_refl fades_trans)
  | |- pres fades (match ?x with _ => _ end) => destruct x
  | |- pres fades (md _) => apply pres_md; intro; (intros ?; apply N.le_refl)
  | |- pres fades (md _) => apply pres_md; intro; cbv beta; match goal with |- fades _ (if ?c then _ else _) => destruct c; intros ?; apply N.le_refl end
  | |- pres fades _ => solve [eauto with fddb]
  end.
Ltac fdt := repeat fd1.
Section Hk.
Variables (E : Env) (f : Fork).
Lemma fd_inc i d : pres fades (increase_balance E i d). Proof. unfold increase_balance. fdt. Qed.
Lemma fd_dec i d : pres fades (decrease_balance E i d). Proof. unfold decrease_balance. fdt. Qed.
Lemma fd_mod i g : pres fades (mod_validator i g). Proof. unfold mod_validator. fdt. Qed.
Hint Resolve fd_inc fd_dec fd_mod : fddb.
Lemma fd_churn b : pres fades (compute_exit_epoch_and_update_churn E b). Proof. unfold compute_exit_epoch_and_update_churn. fdt. Qed.
Lemma fd_cchurn b : pres fades (compute_consolidation_epoch_and_update_churn E b). Proof. unfold compute_consolidation_epoch_and_update_churn. fdt. Qed.
Hint Resolve fd_churn fd_cchurn : fddb.
Lemma fd_exit0 i : pres fades (initiate_validator_exit E i). Proof. unfold initiate_validator_exit. fdt. Qed.
Lemma fd_exit1 i : pres fades (initiate_validator_exit_electra E i). Proof. unfold initiate_validator_exit_electra. fdt. Qed.
Hint Resolve fd_exit0 fd_exit1 : fddb.
Lemma fd_exit i : pres fades (initiate_exit E f i). Proof. unfold initiate_exit. fdt. Qed.
Hint Resolve fd_exit : fddb.
Lemma fd_slash i w : pres fades (slash_validator E f i w). Proof. unfold slash_validator. fdt. Qed.
Hint Resolve fd_slash : fddb.
Lemma fd_pslash op : pres fades (process_proposer_slashing E f op). Proof. unfold process_proposer_slashing. fdt. Qed.
Lemma fd_aslash op : pres fades (process_attester_slashing E f op). Proof. unfold process_attester_slashing. fdt. Qed.
Lemma fd_flag c fl i n fw : pres fades (attestation_flag_step E c fl i n fw).
Proof. unfold attestation_flag_step. fdt; apply pres_md; intro; destruct c; intros ?; apply N.le_refl. Qed.
Hint Resolve fd_flag : fddb.
Lemma fd_att a : pres fades (process_attestation E f a).
Proof. unfold process_attestation, process_attestation_phase0, process_attestation_altair. fdt. Qed.
Lemma fd_add pk wc a : forall g, pres fades (add_validator_to_registry E g pk wc a). Proof. intros g. unfold add_validator_to_registry. fdt; apply pres_md; intros s; apply fades_new; reflexivity. Qed.
Lemma fd_excess i : pres fades (queue_excess_active_balance E i). Proof. unfold queue_excess_active_balance. fdt. Qed.
Hint Resolve fd_add fd_excess : fddb.
Lemma fd_switch i : pres fades (switch_to_compounding_validator E i). Proof. unfold switch_to_compounding_validator. fdt. Qed.
Hint Resolve fd_switch : fddb.
Lemma fd_apply pk wc a sg : pres fades (apply_deposit E f pk wc a sg).
Proof. unfold apply_deposit, apply_deposit_phase0, apply_deposit_electra. fdt. Qed.
Lemma fd_apply_el pk wc a sg : pres fades (apply_deposit_electra E pk wc a sg).
Proof. unfold apply_deposit_electra. fdt. Qed.
Hint Resolve fd_apply fd_apply_el : fddb.
Lemma fd_deposit d : pres fades (process_deposit E f d). Proof. unfold process_deposit. fdt. Qed.
Lemma fd_receipt d : pres fades (process_deposit_receipt E d). Proof. unfold process_deposit_receipt. fdt. Qed.
Lemma fd_vexit op : pres fades (process_voluntary_exit E f op). Proof. unfold process_voluntary_exit. fdt. Qed.
Lemma fd_sync sa : pres fades (process_sync_aggregate E sa). Proof. unfold process_sync_aggregate, sync_step. fdt. Qed.
Lemma fd_wd p : pres fades (process_withdrawals E f p). Proof. unfold process_withdrawals. fdt. Qed.
Lemma fd_bls op : pres fades (process_bls_to_execution_change E op). Proof. unfold process_bls_to_execution_change. fdt. Qed.
Lemma fd_wr op : pres fades (process_execution_layer_withdrawal_request E op). Proof. unfold process_execution_layer_withdrawal_request. fdt. Qed.
Lemma fd_cons op : pres fades (process_consolidation E op). Proof. unfold process_consolidation. fdt. Qed.
Hint Resolve fd_pslash fd_aslash fd_att fd_deposit fd_receipt fd_vexit fd_sync fd_wd fd_bls fd_wr fd_cons : fddb.
Lemma fd_ops b : pres fades (process_operations E f b). Proof. unfold process_operations. fdt. Qed.
End Hk.

Global Hint Resolve fd_inc fd_dec fd_mod fd_exit fd_switch fd_excess : fddb.
Section Epoch.
Variables (E : Env) (f : Fork).
Lemma fd_justify : pres fades (process_justification_and_finalization E f).
Proof. unfold process_justification_and_finalization, weigh_justification_and_finalization, justify, finalize_if. fdt. Qed.
Lemma fd_rewards : pres fades (process_rewards_and_penalties E f). Proof. unfold process_rewards_and_penalties, apply_deltas. fdt. Qed.
Lemma fd_registry : pres fades (process_registry_updates E f). Proof. unfold process_registry_updates, registry_step. fdt. Qed.
Lemma fd_slashings : pres fades (process_slashings E f). Proof. unfold process_slashings, slashings_step. fdt. Qed.
Lemma fd_deploop l : forall a p c, pres fades (pending_deposits_loop E l a p c).
Proof. induction l as [|d l IH]; intros a p c; cbn [pending_deposits_loop]; fdt. Qed.
Lemma fd_consloop l : forall n, pres fades (pending_consolidations_loop E l n).
Proof. induction l as [|d l IH]; intros n; cbn [pending_consolidations_loop]; fdt. Qed.
Hint Resolve fd_deploop fd_consloop : fddb.
Lemma fd_deps : pres fades (process_pending_balance_deposits E). Proof. unfold process_pending_balance_deposits. fdt. Qed.
Lemma fd_conss : pres fades (process_pending_consolidations E). Proof. unfold process_pending_consolidations. fdt. Qed.
Lemma fd_eff : pres fades (process_effective_balance_updates E f). Proof. unfold process_effective_balance_updates, effective_balance_step. fdt. Qed.
Lemma fd_slr : pres fades (process_slashings_reset E). Proof. unfold process_slashings_reset. fdt. Qed.
Lemma fd_hist : pres fades (process_historical_update E f). Proof. unfold process_historical_update. fdt. Qed.
Lemma fd_part : pres fades (match f with Phase0 => process_participation_record_updates | _ => process_participation_flag_updates ;; process_sync_committee_updates E end).
Proof. unfold process_participation_record_updates, process_participation_flag_updates, process_sync_committee_updates. fdt. Qed.


Lemma fd_randaor : pres fades (process_randao_mixes_reset E). Proof. unfold process_randao_mixes_reset. fdt. Qed.
End Epoch.


(** ** A block *)
Section Block.
Variables (E : Env) (f : Fork).
Lemma fd_header b : pres fades (process_block_header E f b). Proof. unfold process_block_header. fdt. Qed.
Lemma fd_rand b : pres fades (process_randao E b). Proof. unfold process_randao. fdt. Qed.
Lemma fd_eth1 b : pres fades (process_eth1_data E b). Proof. unfold process_eth1_data. fdt. Qed.
Lemma fd_payl g b : pres fades (process_execution_payload E g b). Proof. unfold process_execution_payload. fdt. Qed.
Hint Resolve fd_header fd_rand fd_eth1 fd_payl fd_wd fd_ops fd_sync : fddb.
Lemma fd_block b : pres fades (process_block E f b). Proof. unfold process_block. fdt. Qed.
Lemma fd_slot : pres fades (process_slot E f). Proof. unfold process_slot. fdt. Qed.
Lemma fd_reset : pres fades (process_eth1_data_reset E). Proof. unfold process_eth1_data_reset. fdt. Qed.
End Block.

(** ** The end of an epoch *)
Section Update.
Variable E : Env.
Hypothesis Hc : ctx_sane E.
Lemma sub_low a b r : b <= a -> sub E a b = Ok r -> r <= a - b.
Proof. intros Hb H. unfold sub, usub in H. destruct (N.leb_spec b a); [|lia]. injection H as <-. lia. Qed.
Lemma add_low a b r : add E a b = Ok r -> r <= a + b.
Proof. intros H. unfold add, uadd in H. destruct (_ <? _); [injection H as <-; lia|]. destruct (chk E); [discriminate|]. injection H as <-. apply N.mod_le. rewrite U64_val. pows. lia. Qed.
Lemma score_upd s j x i y : nthN (inactivity_scores s) j = Some y -> score (set_inactivity_scores (updN (inactivity_scores s) j x) s) i = if j =? i then x else score s i.
Proof.
  intros H. unfold score. gs. destruct (N.eqb_spec j i) as [<-|Hne]; [rewrite nthN_updN_eq by (apply nthN_some in H; exact H); reflexivity|]. rewrite nthN_updN_ne by congruence. reflexivity.
Qed.
Lemma step_score l nl j m t i : inactivity_update_step E l nl j m = (Ok tt, t) ->
  if memN i l then score t i <= score m i - (if j =? i then 1 else 0) else score t i <= score m i + (if j =? i then INACTIVITY_SCORE_BIAS E else 0).
Proof.
  intros H. unfold inactivity_update_step in H. apply sbind_ok_inv in H as (sc & u & A & H). apply inv_rd in A as [A ->].
  apply sbind_ok_inv in H as (sc1 & u & B & H). apply inv_lift in B as [B ->]. apply sbind_ok_inv in H as ([] & u & C & H). unfold md in C. injection C as <-.
  assert (Hn : nthN (inactivity_scores m) j = Some sc) by (unfold idx in A; destruct (nthN (inactivity_scores m) j); [injection A as <-; reflexivity|discriminate]).
  set (u := set_inactivity_scores (updN (inactivity_scores m) j sc1) m) in *.
  assert (F : score t i <= score u i).
  { destruct nl; cbn [swhen] in H; [|injection H as <-; apply N.le_refl]. apply sbind_ok_inv in H as (sc2 & w & D & H). apply inv_rd in D as [D ->]. unfold md in H. injection H as <-.
    apply rbind_ok_inv in D as (x & D1 & D2). unfold idx in D1. destruct (nthN (inactivity_scores u) j) as [y|] eqn:Hy; [|discriminate]. injection D1 as ->.
    change (updN (updN (inactivity_scores m) j sc1) j sc2) with (updN (inactivity_scores u) j sc2). rewrite (score_upd u j sc2 i x Hy). destruct (N.eqb_spec j i) as [<-|]; [|apply N.le_refl]. apply sub_low in D2; [|lia]. unfold score. rewrite Hy. lia. }
  unfold u in F. rewrite (score_upd m j sc1 i sc Hn) in F. destruct (N.eqb_spec j i) as [<-|].
  - assert (Hs : score m j = sc) by (unfold score; rewrite Hn; reflexivity). rewrite Hs. destruct (memN j l); [apply sub_low in B; lia|apply add_low in B; lia].
  - destruct (memN i l); lia.
Qed.
Lemma loop_score l nl i L : forall m t, sfor L (inactivity_update_step E l nl) m = (Ok tt, t) ->
  if memN i l then score t i <= score m i - (if memN i L then 1 else 0) else NoDup L -> score t i <= score m i + (if memN i L then INACTIVITY_SCORE_BIAS E else 0).
Proof.
  induction L as [|j L IH]; intros m t H; cbn [sfor] in H; [injection H as <-; cbn [memN existsb]; destruct (memN i l); [|intros _]; lia|].
  apply sbind_ok_inv in H as ([] & u & H1 & H). specialize (IH u t H). apply (step_score l nl j m u i) in H1.
  change (memN i (j :: L)) with ((i =? j) || memN i L). rewrite (N.eqb_sym i j). destruct (memN i l).
  - destruct (j =? i), (memN i L); cbn [orb]; lia.
  - intros Hnd. inversion Hnd as [|x y Hx Hy]; subst. specialize (IH Hy). destruct (N.eqb_spec j i) as [->|]; cbn [orb]; [|lia].
    destruct (memN i L) eqn:Hm; [apply memN_true in Hm; contradiction|]. lia.
Qed.
Lemma inact_score s t i : process_inactivity_updates E s = (Ok tt, t) ->
  if epoch_of E s =? 0 then t = s else if voted_flag E s 1 i then score t i <= score s i - 1 else score t i <= score s i + (if eligible_at E s i then INACTIVITY_SCORE_BIAS E else 0).
Proof.
  intros H. unfold process_inactivity_updates in H. apply sbind_ok_inv in H as (c & u & A & H). apply inv_rd in A as [A ->]. rewrite (current_epoch_ok E Hc) in A. injection A as <-.
  change GENESIS_EPOCH with 0 in H. destruct (N.eqb_spec (epoch_of E s) 0) as [He|He]; [injection H as <-; reflexivity|].
  apply sbind_ok_inv in H as (L & u & A & H). apply inv_rd in A as [A ->]. rewrite (eligible_ok E Hc) in A. injection A as <-.
  apply sbind_ok_inv in H as (l & u & A & H). apply inv_rd in A as [A ->]. rewrite (previous_epoch_ok E Hc) in A. cbn [rbind] in A.
  apply sbind_ok_inv in H as (lk & u & B & H). apply inv_rd in B as [_ ->]. apply (loop_score _ _ i) in H.
  destruct (voted_flag E s 1 i) eqn:Hv.
  - rewrite (voted_member E Altair Hc s 1 l i A He Hv) in H.
    assert (Hm : memN i (indices_where (eligible_v E s) (validators s)) = true).
    { apply memN_true, In_eligible. unfold eligible_at. unfold voted_flag in Hv. destruct (nthN (validators s) i) as [v|]; [|discriminate]. destruct (nthN _ i); [|discriminate].
      apply andb_true_iff in Hv as [Hv _]. apply andb_true_iff in Hv as [Hv _]. unfold eligible_v. rewrite Hv. reflexivity. }
    rewrite Hm in H. exact H.
  - assert (Hm : memN i (indices_where (eligible_v E s) (validators s)) = eligible_at E s i).
    { destruct (eligible_at E s i) eqn:Q; [apply memN_true, In_eligible; exact Q|]. apply memN_false. intros X. apply In_eligible in X. congruence. }
    destruct (memN i l); [lia|]. specialize (H (NoDup_indices_where _ _)). rewrite Hm in H. exact H.
Qed.
Definition ballots (s : BeaconState) := (slot s, validators s, previous_epoch_participation s).
Lemma voted_ballots s t k i : ballots t = ballots s -> voted_flag E t k i = voted_flag E s k i.
Proof. intros H. unfold ballots in H. injection H as A B C. unfold voted_flag, prev_epoch_of, epoch_of. rewrite A, B, C. reflexivity. Qed.
Lemma eligible_ballots s t i : ballots t = ballots s -> eligible_at E t i = eligible_at E s i.
Proof. intros H. unfold ballots in H. injection H as A B C. unfold eligible_at, eligible_v, prev_epoch_of, epoch_of. rewrite A, B. reflexivity. Qed.
Lemma epoch_score f s t i : process_epoch E f s = (Ok tt, t) ->
  if fork_le Altair f && negb (epoch_of E s =? 0) then (if voted_flag E s 1 i then score t i <= score s i - 1 else score t i <= score s i + (if eligible_at E s i then INACTIVITY_SCORE_BIAS E else 0)) else score t i <= score s i.
Proof.
  intros H. unfold process_epoch in H. assert (G : forall a b (m : St BeaconState unit), pres fades m -> m a = (Ok tt, b) -> fades a b) by (intros a b m P Q; pose proof (P a) as X; rewrite Q in X; exact X).
  apply sbind_ok_inv in H as ([] & s1 & H1 & H).
  assert (B1 : ballots s1 = ballots s).
  { assert (K : CrashProofs.keeps ballots (process_justification_and_finalization E f)) by (unfold process_justification_and_finalization, weigh_justification_and_finalization, justify, finalize_if; kp).
    specialize (K s). rewrite H1 in K. exact K. }
  apply G in H1; [|apply fd_justify]. apply sbind_ok_inv in H as ([] & s2 & H2 & H).
  assert (R : fades s2 t).
  { apply sbind_ok_inv in H as ([] & s3 & H3 & H). apply G in H3; [|apply fd_rewards]. apply sbind_ok_inv in H as ([] & s4 & H4 & H). apply G in H4; [|apply fd_registry].
    apply sbind_ok_inv in H as ([] & s5 & H5 & H). apply G in H5; [|apply fd_slashings]. apply sbind_ok_inv in H as ([] & s6 & H6 & H). apply G in H6; [|apply fd_reset].
    apply sbind_ok_inv in H as ([] & s7 & H7 & H). apply G in H7; [|apply (pres_when fades fades_refl), (pres_bind fades fades_trans); [apply fd_deps|intros ?; apply fd_conss]].
    apply sbind_ok_inv in H as ([] & s8 & H8 & H). apply G in H8; [|apply fd_eff]. apply sbind_ok_inv in H as ([] & s9 & H9 & H). apply G in H9; [|apply fd_slr].
    apply sbind_ok_inv in H as ([] & u & H10 & H). apply G in H10; [|apply fd_randaor]. apply sbind_ok_inv in H as ([] & s11 & H11 & H). apply G in H11; [|apply fd_hist]. apply G in H; [|apply fd_part].
    eapply fades_trans; [exact H3|]. eapply fades_trans; [exact H4|]. eapply fades_trans; [exact H5|]. eapply fades_trans; [exact H6|]. eapply fades_trans; [exact H7|].
    eapply fades_trans; [exact H8|]. eapply fades_trans; [exact H9|]. eapply fades_trans; [exact H10|]. eapply fades_trans; [exact H11|exact H]. }
  clear H. specialize (R i). specialize (H1 i).
  assert (Es : epoch_of E s1 = epoch_of E s) by (unfold epoch_of; rewrite (f_equal (fun x => fst (fst x)) B1 : slot s1 = slot s); reflexivity).
  destruct (fork_le Altair f); cbn [swhen andb] in *; [|injection H2 as <-; lia]. apply (inact_score s1 s2 i) in H2. rewrite Es in H2. rewrite (voted_ballots s s1 1 i B1), (eligible_ballots s s1 i B1) in H2.
  destruct (epoch_of E s =? 0); cbn [negb]; [subst s2; lia|]. destruct (voted_flag E s 1 i); lia.
Qed.
Lemma slot_score f s t i : slot s + 1 < 2 ^ 64 -> process_slots E f (slot s + 1) s = (Ok tt, t) ->
  if ends E (f, s) (f, t) then (if voted_flag E s 1 i then score t i <= score s i - 1 else score t i <= score s i + (if eligible_at E s i then INACTIVITY_SCORE_BIAS E else 0)) else score t i <= score s i.
Proof.
  intros Hb H. assert (Hb' : slot s + 1 < U64) by (rewrite U64_val; pows; lia).
  assert (Ha : advance_slot E f s = (Ok tt, t)).
  { rewrite process_slots_loop in H by lia. replace (N.to_nat (slot s + 1 - slot s)) with 1%nat in H by lia.
    rewrite loop_step in H by lia. apply sbind_ok_inv in H as ([] & m & H1 & H). rewrite loop_done in H; [injection H as <-; exact H1|].
    destruct (advance_inv E Hc f s m Hb' H1) as (s1 & s2 & _ & _ & _ & S2 & ->). gs. lia. }
  destruct (advance_inv E Hc f s t Hb' Ha) as (s1 & s2 & A1 & A2 & A3 & A4 & ->). clear H Ha.
  pose proof (fd_slot E f s i) as P. rewrite A1 in P. cbn [snd] in P.
  assert (B1 : ballots s1 = ballots s).
  { assert (K : CrashProofs.keeps ballots (process_slot E f)).
    { unfold process_slot. repeat first [apply keeps_rd | apply keeps_lift | apply keeps_ret | apply keeps_md; reflexivity
        | apply keeps_md; intros ?; match goal with |- context [if ?c then _ else _] => destruct c end; reflexivity | apply keeps_when | apply keeps_bind; [|intros ?]]. }
     specialize (K s). rewrite A1 in K. exact K. }
  change (score (set_slot (slot s2 + 1) s2) i) with (score s2 i). unfold ends. cbn [fst snd].
  assert (Et : epoch_of E (set_slot (slot s2 + 1) s2) = (slot s + 1) / SLOTS_PER_EPOCH E) by (unfold epoch_of; gs; rewrite A4; reflexivity). rewrite Et.
  pose proof (spe_pos E Hc) as Hp.
  destruct (N.eqb_spec ((slot s + 1) mod SLOTS_PER_EPOCH E) 0) as [Hm|Hm].
  - assert (Z : epoch_of E s <> (slot s + 1) / SLOTS_PER_EPOCH E).
    { unfold epoch_of. pose proof (N.div_mod (slot s + 1) (SLOTS_PER_EPOCH E) ltac:(lia)) as D. rewrite Hm in D.
      assert (slot s / SLOTS_PER_EPOCH E < (slot s + 1) / SLOTS_PER_EPOCH E); [|lia]. apply N.div_lt_upper_bound; lia. }
    apply N.eqb_neq in Z. rewrite Z. cbn [negb]. rewrite andb_true_r. apply (epoch_score f s1 s2 i) in A3.
    assert (Es : epoch_of E s1 = epoch_of E s) by (unfold epoch_of; rewrite A2; reflexivity). rewrite Es, (voted_ballots s s1 1 i B1), (eligible_ballots s s1 i B1) in A3.
    destruct (fork_le Altair f && negb (epoch_of E s =? 0)); [destruct (voted_flag E s 1 i)|]; lia.
  - assert (Z : epoch_of E s = (slot s + 1) / SLOTS_PER_EPOCH E).
    { unfold epoch_of. apply (N.div_unique (slot s + 1) _ _ ((slot s + 1) mod SLOTS_PER_EPOCH E)).
      - apply N.mod_lt. exact Hp.
      - pose proof (N.div_mod (slot s) (SLOTS_PER_EPOCH E) Hp) as D. pose proof (N.mod_lt (slot s) (SLOTS_PER_EPOCH E) Hp) as L.
        destruct (N.eq_dec (slot s mod SLOTS_PER_EPOCH E + 1) (SLOTS_PER_EPOCH E)) as [Q|Q].
        + exfalso. apply Hm. replace (slot s + 1) with ((slot s / SLOTS_PER_EPOCH E + 1) * SLOTS_PER_EPOCH E) by lia. apply N.mod_mul. exact Hp.
        + assert (M : (slot s + 1) mod SLOTS_PER_EPOCH E = slot s mod SLOTS_PER_EPOCH E + 1) by (symmetry; apply (N.mod_unique _ _ (slot s / SLOTS_PER_EPOCH E)); lia). rewrite M. lia. }
    rewrite Z, N.eqb_refl. cbn [negb]. rewrite andb_false_r. subst s2. exact P.
Qed.
End Update.

(** ** Upgrades *)
Lemma zeros_score n i : match nthN (repeatN 0 n) i with Some x => x | None => 0 end = 0.
Proof. destruct (N.ltb_spec i n) as [H|H]; [rewrite nthN_repeatN by exact H; reflexivity|]. assert (Hn : nthN (repeatN 0 n) i = None) by (apply nthN_none; rewrite lenN_repeatN; exact H). rewrite Hn. reflexivity. Qed.
Lemma fd_upgrade (E : Env) f g s t : chain_call E (f, s) (g, t) -> f <> g -> fades s t.
Proof.
  intros H Hne. inversion H; subst; try congruence.
  - match goal with H : upgrade_to_altair E s = Ok t |- _ => rename H into Hu end. unfold upgrade_to_altair in Hu. rinv Hu. subst t.
    match goal with H : translate_participation _ _ _ = Ok _ |- _ => unfold translate_participation in H; rinv H; subst end. intros i. eapply N.le_trans; [apply N.eq_le_incl; exact (zeros_score (lenN (validators s)) i)|apply N.le_0_l].
  - match goal with H : upgrade_to_bellatrix E s = Ok t |- _ => unfold upgrade_to_bellatrix in H; rinv H; subst end. intros i. apply N.le_refl.
  - match goal with H : upgrade_to_capella E s = Ok t |- _ => unfold upgrade_to_capella in H; rinv H; subst end. intros i. apply N.le_refl.
  - match goal with H : upgrade_to_deneb E s = Ok t |- _ => unfold upgrade_to_deneb in H; rinv H; subst end. intros i. apply N.le_refl.
  - match goal with H : upgrade_to_electra E s = Ok t |- _ => rename H into Hu end. unfold upgrade_to_electra in Hu. apply rbind_ok_inv in Hu as (e & _ & Hu). apply rbind_ok_inv in Hu as (ee & _ & Hu). apply rbind_ok_inv in Hu as (ec & _ & Hu).
    set (s0 := electra_base E e ee ec s) in *. destruct (electra_finish E s0) as [r post] eqn:Hp. apply rbind_ok_inv in Hu as (u & _ & Hu). apply Ok_inj in Hu. subst post.
    assert (K : pres fades (electra_finish E)) by (unfold electra_finish, queue_entire_balance_and_reset_validator; fdt).
    specialize (K s0). rewrite Hp in K. exact K.
Qed.
