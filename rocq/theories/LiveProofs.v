(** * Justification and finalization along a chain (proof file; no model definitions) *)
From Verif Require Import Base BaseLemmas Types Ctx Env Helpers HelpersAltair HelpersElectra Block Epoch Transition Upgrade Genesis StLemmas Frame
  SpecCommon SpecShuffle SpecHelpers SpecElectra SpecOps SpecBlock SpecAtt SpecFinality SpecRegistry SpecHistory SpecDuties SpecReach SpecSafety SpecLive
  HelperProofs HelperProofs2 FrameProofs HistoryProofs SlotProofs AttProofs FinalityProofs LookProofs ReachShape UpgradeProofs SpecEpoch EpochProofs PeriodicProofs VoteProofs
  PropsFinality PropsVotes SafetyProofs SafetyChain.
From Coq Require Import Relations.

Section Live.
Context (E : Env).
Hypothesis Hchk : chk E = true.
Hypothesis Hc : ctx_sane E.
Hypothesis Ha : ctx_sane_att E.
Hypothesis Hce : ctx_sane_epoch E.
Hypothesis Hw : hash_wf (hash E).
Hypothesis Hm : mixes_last E.
Hypothesis Hspe : 2 <= SLOTS_PER_EPOCH E.

Definition fin_same (s t : BeaconState) : Prop :=
  justification_bits t = justification_bits s /\ previous_justified_checkpoint t = previous_justified_checkpoint s
  /\ current_justified_checkpoint t = current_justified_checkpoint s /\ finalized_checkpoint t = finalized_checkpoint s.
Lemma fin_refl s : fin_same s s. Proof. repeat split. Qed.
Lemma fin_trans a b c : fin_same a b -> fin_same b c -> fin_same a c.
Proof. intros (A1&A2&A3&A4) (B1&B2&B3&B4). repeat split; congruence. Qed.
(** a step either stays in the epoch and keeps the finality fields, or ends the epoch *)
Lemma fine_finality p q : fine E p q -> (epoch_of E (snd q) = epoch_of E (snd p) /\ fin_same (snd p) (snd q)) \/ epoch_of E (snd q) = epoch_of E (snd p) + 1.
Proof.
  destruct Hm as [HL HV]. intros H. destruct H as [f s t Hu H|f b s r t H|f g s t H Hne]; cbn [snd].
  - destruct (N.eq_dec ((slot s + 1) mod SLOTS_PER_EPOCH E) 0) as [Hb|Hb].
    + right. destruct (boundary_epoch E Hc HL HV (slot s) Hb) as (B1 & _).
      destruct (advance_inv E Hc f s t Hu H) as (x1 & x2 & _ & _ & _ & S2 & ->). unfold epoch_of. gs. rewrite S2. exact B1.
    + left. destruct (advance_in_epoch E Hc HL HV f s t Hu Hb H) as (s1 & [S1 S2 S3 S4 S5 S6 S7 S8] & Ht & He). split; [exact He|].
      pose proof (S6 true) as J1. pose proof (S6 false) as J2. cbn [jb] in J1, J2. rewrite Ht. unfold fin_same. gs. auto.
  - left. pose proof (in_block_block E Hchk Hc Ha Hw HL HV f b s r t H) as B. destruct B. split; [unfold epoch_of; congruence|repeat split; assumption].
  - left. destruct (upgrade_same E f g s t H Hne) as [(-> & -> & Hup)|(Hf & Hg & U1 & U2 & U3 & U4 & U5 & U6 & U7 & U8)].
    + unfold upgrade_to_altair, translate_participation in Hup. apply rbind_ok_inv in Hup as (e & _ & Hup). apply rbind_ok_inv in Hup as (post & Hpost & Hup).
      apply rbind_ok_inv in Hpost as (part & Hpart & Hpost). apply Ok_inj in Hpost. subst post. apply rbind_ok_inv in Hup as (c & _ & Hup). apply Ok_inj in Hup. subst t.
      split; [reflexivity|repeat split].
    + split; [unfold epoch_of; rewrite U1; reflexivity|repeat split; assumption].
Qed.
Lemma same_epoch_finality f t g s : same_epoch E f t g s -> fin_same t s.
Proof.
  intros [H He]. apply (chain_fine E) in H. apply clos_rt_rt1n in H.
  assert (G : forall p q, clos_refl_trans_1n _ (fine E) p q -> epoch_of E (snd p) <= epoch_of E (snd q) /\ (epoch_of E (snd q) = epoch_of E (snd p) -> fin_same (snd p) (snd q))).
  { clear - Hchk Hc Ha Hce Hw Hm Hspe. intros p q H. induction H as [p|p m q Hpm H [IH1 IH2]]; [split; [lia|intros _; apply fin_refl]|].
    destruct (fine_finality p m Hpm) as [[H1 H2]|H1]; [|split; [lia|intros H2; exfalso; lia]].
    rewrite H1 in *. split; [exact IH1|]. intros H3. eapply fin_trans; [exact H2|apply IH2; exact H3]. }
  apply (proj2 (G _ _ H)). exact He.
Qed.

(** the end of an epoch on a chain: the votes that count are the ones recorded in [s] *)
Lemma target_weight_same f s s1 e w : slot_same s s1 -> recorded_root E s1 (e * SLOTS_PER_EPOCH E) = recorded_root E s (e * SLOTS_PER_EPOCH E) ->
  target_weight E f s1 e w -> target_weight E f s e w.
Proof.
  intros [S1 S2 S3 S4 S5 S6 S7 S8] Hr (l & L1 & L2 & L3). exists l. split; [exact L1|].
  pose proof (S4 true) as A1. pose proof (S4 false) as A2. pose proof (S5 true) as A3. pose proof (S5 false) as A4. cbn [atts participation] in A1, A2, A3, A4.
  split; [|unfold effective_sum, effective_balance_of in L3 |- *; rewrite S2 in L3; exact L3].
  intros i. rewrite (L2 i). unfold voted_target. rewrite S2.
  assert (He : epoch_of E s1 = epoch_of E s) by (unfold epoch_of; rewrite S1; reflexivity). rewrite He.
  assert (Hcom : forall sl c com, is_committee E s1 sl c com <-> is_committee E s sl c com) by (intros; unfold is_committee, is_attester_seed, committees_in_slot, active_set; rewrite S2, S3; reflexivity).
  destruct f; rewrite ?A1, ?A2, ?A3, ?A4, ?Hr; [|reflexivity..].
  split; intros (v & V1 & V2 & a & com & k & K1 & K2 & K3 & K4); exists v; (split; [exact V1|]); (split; [exact V2|]); exists a, com, k; apply Hcom in K3; auto.
Qed.
Lemma chain_epoch_end f s t : on_chain E f s -> lenN (validators s) <= 2 ^ 40 -> slot s < 2 ^ 56 -> stake_fits s -> epoch_ends E f s t -> 1 < epoch_of E s ->
  exists sp sc : bool, (sp = true <-> backed E f s (prev_epoch_of E s)) /\ (sc = true <-> backed E f s (epoch_of E s))
    /\ let b := bits_after (justification_bits s) sp sc in
       justification_bits t = b /\ previous_justified_checkpoint t = current_justified_checkpoint s
       /\ current_justified_checkpoint t = justified_after E s sp sc /\ finalized_checkpoint t = finalized_after E s b /\ epoch_of E t = epoch_of E s + 1.
Proof.
  intros Ho L1 L2 Hsf0 [Hb Hps0] Hlate. destruct Hm as [HL HV].
  assert (Hu : slot s + 1 < U64) by (rewrite U64_val; pows; lia).
  assert (Had : advance_slot E f s = (Ok tt, t)).
  { assert (X : step E (f, s) (f, t)) by (apply step_slot; [rewrite U64_val in Hu; pows; lia|exact Hps0]). apply (step_fine E Hc) in X. inversion X; subst; [assumption| |contradiction].
    exfalso. assert (Y : slot t = slot s) by (pose proof (in_block_block E Hchk Hc Ha Hw HL HV _ _ _ _ _ H0) as B; apply (ib_slot _ _ _ _ B)).
    rewrite process_slots_loop in Hps0 by lia. replace (N.to_nat (slot s + 1 - slot s)) with 1%nat in Hps0 by lia. rewrite loop_step in Hps0 by lia. apply sbind_ok_inv in Hps0 as ([] & m & H1 & H2).
    destruct (advance_inv E Hc f s m Hu H1) as (s1 & s2 & _ & _ & _ & S2 & ->). rewrite loop_done in H2 by (gs; lia). injection H2 as <-. gsh Y. lia. }
  pose proof (on_chain_shape E f s Ho L1) as Hsh.
  destruct (advance_epoch E Hc HL HV f s t Hce L2 Hb Had) as (s1 & s2 & HS & Hps & Hpe & Ht & He & Hr2 & Hv0 & HvA).
  destruct (boundary_epoch E Hc HL HV (slot s) Hb) as (B1 & B2 & B3).
  pose proof HS as [S1 S2 S3 S4 S5 S6 S7 S8].
  assert (Hes : epoch_of E s1 = epoch_of E s) by (unfold epoch_of; rewrite S1; reflexivity).
  assert (Hst' : slot t = slot s + 1) by (rewrite Ht; reflexivity).
  assert (Hbr : block_roots t = block_roots s1) by (rewrite Ht; gs; exact Hr2).
  assert (Hsh1 : state_shape E s1).
  { pose proof (evo_sized E f s s1) as Hz. pose proof (evpa_of E f LSlot _ (evp_slot E f) s) as Q. rewrite Hps in Q. specialize (Hz Q).
    destruct Hsh as (Z1 & Z2 & Z3 & Z4 & Z5 & Z6). destruct Hz as (Y1 & Y2 & Y3 & Y4 & Y5); [repeat split; assumption|]. unfold state_shape. rewrite S2. repeat split; assumption. }
  assert (Hss1 : slot_small s1) by (unfold slot_small; rewrite S1; exact L2).
  assert (Hm1 : 0 < slot s1 mod SLOTS_PER_EPOCH E) by (rewrite S1, B3; lia).
  assert (Hvr : votes_recorded E f s1).
  { pose proof (on_chain_votes E f s (fun _ => conj Hchk Hm) Hc Ha Hw Ho L1 L2) as V. pose proof (S4 true) as A1. pose proof (S4 false) as A2. pose proof (S5 true) as A3. pose proof (S5 false) as A4.
    cbn [atts participation] in A1, A2, A3, A4. destruct f; cbn [votes_recorded] in V |- *; rewrite ?A1, ?A2, ?A3, ?A4; [|rewrite S2; exact V..].
    intros a Ha'. specialize (V a Ha'). unfold pending_recorded, is_committee, is_attester_seed, committees_in_slot, active_set in V |- *. rewrite S2, S3. exact V. }
  assert (Hsf : stake_fits s1) by (unfold stake_fits; rewrite S2; exact Hsf0).
  pose proof (C97_finality_ordered E f s Hc Ha Ho) as (O1 & O2 & O3).
  assert (Hel : epoch_of E s < 2 ^ 56) by (apply (epoch_bound E Hc HL HV); exact L2).
  pose proof (S6 true) as J1. pose proof (S6 false) as J2. cbn [jb] in J1, J2.
  assert (Hjs : justified_small s1) by (clear - O2 O3 Hel J1 J2; unfold justified_small, prev_epoch_of in *; rewrite J1, J2; pows; lia).
  assert (Hroot : forall b, recorded_root E s1 (eb E b s * SLOTS_PER_EPOCH E) = recorded_root E s (eb E b s * SLOTS_PER_EPOCH E)).
  { intros b. pose proof (eb_le E HL HV b s) as Hle.
    assert (Hlt : eb E b s * SLOTS_PER_EPOCH E < slot s).
    { assert (Hmul : eb E b s * SLOTS_PER_EPOCH E <= epoch_of E s * SLOTS_PER_EPOCH E) by (apply N.mul_le_mono_r; lia). change (slot s / SLOTS_PER_EPOCH E) with (epoch_of E s) in B2. rewrite N.mul_add_distr_r in B2. clear - Hmul B2 Hspe. lia. }
    destruct (kept_advance E Hc (eb E b s * SLOTS_PER_EPOCH E) f s t Hu Had Hlt) as [_ K]. unfold recorded_root. rewrite <- Hbr. apply K. rewrite Hst'.
    destruct Ha as (_ & Hsphr & _). assert (Hmul : (epoch_of E s + 1) * SLOTS_PER_EPOCH E <= (eb E b s + 2) * SLOTS_PER_EPOCH E) by (apply N.mul_le_mono_r; lia).
    change (slot s / SLOTS_PER_EPOCH E) with (epoch_of E s) in B2. rewrite <- B2, N.mul_add_distr_r in Hmul. clear - Hmul Hsphr. lia. }
  destruct (C16_process E f s1 Hc Ha Hw Hsh1 Hss1 Hm1 Hvr Hsf Hjs) as [_ Clate]. rewrite Hes in Clate.
  rewrite epoch_split in Hpe. apply sbind_ok_inv in Hpe as ([] & m & Hjf & Htail).
  pose proof (evp_tail E f false m) as Q. rewrite Htail in Q. cbn [snd] in Q.
  destruct (frame_finality E f _ _ _ Q ltac:(discriminate)) as (F1 & F2 & F3 & F4). clear Q.
  assert (K1 : justification_bits t = justification_bits m) by (rewrite Ht; gs; exact F1).
  assert (K2 : previous_justified_checkpoint t = previous_justified_checkpoint m) by (rewrite Ht; gs; exact F2).
  assert (K3 : current_justified_checkpoint t = current_justified_checkpoint m) by (rewrite Ht; gs; exact F3).
  assert (K4 : finalized_checkpoint t = finalized_checkpoint m) by (rewrite Ht; gs; exact F4).
  destruct (Clate Hlate) as (wp & wc & Wp & Wc & Hrun). rewrite Hrun in Hjf. injection Hjf as <-.
  assert (Hpp : prev_epoch_of E s1 = prev_epoch_of E s) by (unfold prev_epoch_of; rewrite Hes; reflexivity). rewrite Hpp in Wp.
  pose proof (Hroot true) as Rc. pose proof (Hroot false) as Rp. cbn [eb] in Rc, Rp.
  apply (target_weight_same f s s1 _ _ HS Rp) in Wp. apply (target_weight_same f s s1 _ _ HS Rc) in Wc.
  assert (Hab : active_balance E s1 = active_balance E s) by (unfold active_balance, effective_sum, effective_balance_of, active_set, epoch_of; rewrite S1, S2; reflexivity).
  rewrite Hab in *. exists (supermajority wp (active_balance E s)), (supermajority wc (active_balance E s)).
  assert (Hsm : forall e w, target_weight E f s e w -> supermajority w (active_balance E s) = true <-> backed E f s e).
  { intros e w W. unfold supermajority. rewrite N.leb_le. split; [intros H; exists w; auto|]. intros (w' & W' & H). rewrite (C16_weight_unique E f s e w w' W W'). exact H. }
  split; [apply Hsm; exact Wp|]. split; [apply Hsm; exact Wc|].
  set (sp := supermajority wp (active_balance E s)) in *. set (sc := supermajority wc (active_balance E s)) in *. clearbody sp sc.
  unfold finality_after in K1, K2, K3, K4. gsh K1. gsh K2. gsh K3. gsh K4. cbv zeta. rewrite S8 in *. split; [exact K1|]. split; [congruence|].
  split; [|split; [|exact He]].
  - rewrite K3. unfold justified_after, checkpoint_of. rewrite Hes, Hpp, J1, Rc, Rp. reflexivity.
  - rewrite K4. unfold finalized_after. rewrite Hes, J1, J2, S7. reflexivity.
Qed.
End Live.
