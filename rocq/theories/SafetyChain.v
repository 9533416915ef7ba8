(** * Chains in small steps; supermajority links along a chain (proof file; no model definitions) *)
From Verif Require Import Base BaseLemmas Types Ctx Env Helpers HelpersAltair HelpersElectra Block Epoch Transition Upgrade Genesis StLemmas Frame
  SpecCommon SpecShuffle SpecHelpers SpecElectra SpecOps SpecBlock SpecAtt SpecFinality SpecRegistry SpecHistory SpecDuties SpecReach SpecSafety
  HelperProofs HelperProofs2 FrameProofs HistoryProofs SlotProofs AttProofs FinalityProofs LookProofs ReachShape UpgradeProofs SpecEpoch EpochProofs PeriodicProofs VoteProofs
  PropsFinality PropsVotes SafetyProofs.
From Coq Require Import Relations.

(** ** chains in small steps *)
Section Fine.
Context (E : Env).
Hypothesis Hc : ctx_sane E.
Inductive fine : Fork * BeaconState -> Fork * BeaconState -> Prop :=
| fine_slot f s t : slot s + 1 < U64 -> advance_slot E f s = (Ok tt, t) -> fine (f, s) (f, t)
| fine_block f b s r t : process_block E f b s = (r, t) -> fine (f, s) (f, t)
| fine_upgrade f g s t : chain_call E (f, s) (g, t) -> f <> g -> fine (f, s) (g, t).
Lemma fine_loop f target : target < 2 ^ 64 -> forall n s t, slots_loop E f n target s = (Ok tt, t) -> clos_refl_trans _ fine (f, s) (f, t).
Proof.
  intros Ht. induction n as [|n IH]; intros s t H.
  - destruct (N.lt_ge_cases (slot s) target) as [Hlt|Hge]; [|rewrite loop_done in H by assumption; injection H as <-; apply rt_refl].
    cbn [slots_loop] in H. rewrite (run_rd _ _ s (slot s)) in H by reflexivity. destruct (N.ltb_spec (slot s) target); [|lia]. unfold lift in H. discriminate.
  - destruct (N.lt_ge_cases (slot s) target) as [Hlt|Hge]; [|rewrite loop_done in H by assumption; injection H as <-; apply rt_refl].
    rewrite loop_step in H by exact Hlt. apply sbind_ok_inv in H as ([] & m & H1 & H2). eapply rt_trans; [apply rt_step, fine_slot; [rewrite U64_val; pows; lia|exact H1]|]. eauto.
Qed.
Lemma fine_slots f target s t : target < 2 ^ 64 -> process_slots E f target s = (Ok tt, t) -> clos_refl_trans _ fine (f, s) (f, t).
Proof. intros Ht H. unfold process_slots in H. sinv H. destruct (target <=? _); sinv H; [discriminate|]. eapply fine_loop; eauto. Qed.
Lemma fine_call p q : chain_call E p q -> clos_refl_trans _ fine p q.
Proof.
  intros H. inversion H; subst; try (apply rt_step, fine_upgrade; [exact H|discriminate]); [|eapply fine_slots; eauto|apply rt_step; eapply fine_block; eauto].
  match goal with H : state_transition _ _ _ _ _ = _ |- _ => rename H into Hst end. unfold state_transition in Hst. sinv Hst.
  match goal with H : process_slots E f _ s = (Ok ?u, _) |- _ => destruct u; apply fine_slots in H; [|assumption] end.
  eapply rt_trans; [eassumption|]. unfold state_transition_block_in_slot in Hst. sinv Hst.
  match goal with H : swhen validate _ ?x = (Ok _, ?y) |- clos_refl_trans _ _ (f, ?x) _ => assert (y = x) by (destruct validate; cbn [swhen] in H; sinv H; reflexivity); subst y end.
  match goal with H : process_block E f ?b ?x = (_, ?y) |- _ => assert (s' = y) by (destruct validate; cbn [swhen] in Hst; [sinv Hst; reflexivity|unfold sret in Hst; injection Hst as <-; reflexivity]); subst y;
    apply rt_step; eapply fine_block; exact H end.
Qed.
Lemma chain_fine p q : chain E p q -> clos_refl_trans _ fine p q.
Proof. induction 1 as [a b H|a|a b c H1 IH1 H2 IH2]; [apply fine_call; exact H|apply rt_refl|eapply rt_trans; eauto]. Qed.
Lemma fine_chain p q : fine p q -> chain E p q.
Proof.
  intros H. apply rt_step. destruct H as [f s t Hb H|f b s r t H|f g s t H _]; [|eapply chain_block; exact H|exact H].
  apply (chain_slots E f (slot s + 1)); [rewrite U64_val in Hb; pows; lia|]. rewrite process_slots_loop by lia.
  replace (N.to_nat (slot s + 1 - slot s)) with 1%nat by lia. rewrite loop_step by lia. unfold sbind. rewrite H.
  apply loop_done. destruct (advance_inv E Hc f s t Hb H) as (s1 & s2 & _ & _ & _ & S2 & ->). gs. lia.
Qed.
(** the steps of a walk are these *)
Lemma step_fine p q : step E p q <-> fine p q.
Proof.
  split; intros H.
  - destruct H as [f s t Hb H|f b s r t H|f g s t H Hne]; [|eapply fine_block; exact H|apply fine_upgrade; assumption].
    apply fine_slot; [rewrite U64_val; pows; lia|]. rewrite process_slots_loop in H by lia. replace (N.to_nat (slot s + 1 - slot s)) with 1%nat in H by lia.
    rewrite loop_step in H by lia. apply sbind_ok_inv in H as ([] & m & H1 & H). rewrite loop_done in H; [injection H as <-; exact H1|].
    destruct (advance_inv E Hc f s m ltac:(rewrite U64_val; pows; lia) H1) as (s1 & s2 & _ & _ & _ & S2 & ->). gs. lia.
  - destruct H as [f s t Hb H|f b s r t H|f g s t H Hne]; [|eapply step_block; exact H|apply step_upgrade; assumption].
    apply step_slot; [rewrite U64_val in Hb; pows; lia|]. rewrite process_slots_loop by lia. replace (N.to_nat (slot s + 1 - slot s)) with 1%nat by lia. rewrite loop_step by lia. unfold sbind. rewrite H.
    apply loop_done. destruct (advance_inv E Hc f s t Hb H) as (s1 & s2 & _ & _ & _ & S2 & ->). gs. lia.
Qed.
Lemma walk_of p0 q : chain E p0 q -> exists l, walk E p0 (q :: l).
Proof.
  intros H. assert (G : clos_refl_trans_n1 _ fine p0 q) by (apply clos_rt_rtn1, chain_fine; exact H). clear H.
  induction G as [|p q Hpq G [l IH]]; [exists []; apply walk_start|]. exists (p :: l). apply walk_step; [exact IH|apply step_fine; exact Hpq].
Qed.
Lemma walk_chain p0 l : walk E p0 l -> forall q, In q l -> chain E p0 q /\ forall z l', l = z :: l' -> chain E q z.
Proof.
  induction 1 as [|p q l Hw IH Hs]; intros x Hx.
  - destruct Hx as [<-|[]]. split; [apply rt_refl|]. intros z l' [= <- _]. apply rt_refl.
  - apply step_fine, fine_chain in Hs. destruct Hx as [<-|Hx].
    + destruct (IH p (or_introl eq_refl)) as [H1 _]. split; [eapply rt_trans; eauto|]. intros z l' [= <- _]. apply rt_refl.
    + destruct (IH x Hx) as [H1 H2]. split; [exact H1|]. intros z l' [= <- _]. eapply rt_trans; [eapply H2; reflexivity|exact Hs].
Qed.
(** induction along a walk *)
Lemma walk_ind2 p0 tr (P : Fork * BeaconState -> Prop) : walk E p0 tr -> P p0 ->
  (forall p q, In p tr -> In q tr -> fine p q -> P p -> P q) -> forall q, In q tr -> P q.
Proof.
  intros Hw H0. induction Hw as [|p q l Hw IH Hs]; intros Hstep x Hx; [destruct Hx as [<-|[]]; exact H0|].
  assert (Hl : forall x, In x (p :: l) -> P x) by (apply IH; intros a b Ia Ib; apply Hstep; right; assumption).
  destruct Hx as [<-|Hx]; [|auto]. apply (Hstep p q); [right; left; reflexivity|left; reflexivity|apply step_fine; exact Hs|apply Hl; left; reflexivity].
Qed.
End Fine.

(** ** sums of stake *)
Lemma sum_filter_zero (g : N -> N) (p : N -> bool) X : (forall x, p x = false -> g x = 0) -> sumN (map g (filter p X)) = sumN (map g X).
Proof.
  intros H. induction X as [|x X IH]; [reflexivity|]. cbn [filter map]. destruct (p x) eqn:Hp; cbn [map]; rewrite ?sumN_cons, IH; [reflexivity|]. rewrite (H x Hp). lia.
Qed.
Lemma listed_range w : map (listed w) (rangeN (lenN w)) = w.
Proof.
  apply nthN_ext. intros i. rewrite !nthN_map. destruct (N.lt_ge_cases i (lenN w)) as [Hi|Hi].
  - rewrite nthN_rangeN by exact Hi. destruct (nthN_lt _ _ Hi) as [v Hv]. cbn [option_map]. unfold listed. rewrite Hv. reflexivity.
  - rewrite (proj2 (nthN_none w i)) by exact Hi. rewrite (proj2 (nthN_none _ i)) by (rewrite lenN_rangeN; exact Hi). reflexivity.
Qed.
Lemma listed_le w X : NoDup X -> sumN (map (listed w) X) <= sumN w.
Proof.
  intros H. rewrite <- (sum_filter_zero (listed w) (fun i => i <? lenN w)).
  - apply (N.le_trans _ (sumN (map (listed w) (rangeN (lenN w))))); [|rewrite listed_range; apply N.le_refl]. apply NoDup_sum_le; [apply NoDup_filter; exact H|]. intros x Hx. apply filter_In in Hx as [_ Hx]. apply In_rangeN. lia.
  - intros x Hx. unfold listed. rewrite (proj2 (nthN_none w x)) by lia. reflexivity.
Qed.
Lemma stake_active s e X : (forall i, In i X -> In i (active_set s e)) -> sumN (map (stake_at s e) X) = effective_sum s X.
Proof.
  intros H. unfold effective_sum. f_equal. apply map_ext_in. intros i Hi. apply H, In_active_set in Hi as (v & Hv & Ha). unfold stake_at, effective_balance_of. rewrite Hv, Ha. reflexivity.
Qed.
Lemma stake_le s e X : NoDup X -> sumN (map (stake_at s e) X) <= effective_sum s (active_set s e).
Proof.
  intros H. rewrite <- (sum_filter_zero (stake_at s e) (fun i => match nthN (validators s) i with Some v => active_at e v | None => false end)).
  - rewrite stake_active.
    + apply NoDup_sum_le; [apply NoDup_filter; exact H|]. intros x Hx. apply filter_In in Hx as [_ Hx]. apply In_active_set. destruct (nthN (validators s) x) as [v|]; [eauto|discriminate].
    + intros i Hi. apply filter_In in Hi as [_ Hx]. apply In_active_set. destruct (nthN (validators s) i) as [v|]; [eauto|discriminate].
  - intros x Hx. unfold stake_at. destruct (nthN (validators s) x); [rewrite Hx|]; reflexivity.
Qed.
(** two thirds of the active stake is two thirds of the table, up to the drift *)
Lemma weight_table (E : Env) w drift s b l : near_table E w drift s -> 3 * EFFECTIVE_BALANCE_INCREMENT E + 2 * drift < 2 * sumN w -> NoDup l ->
  (forall i, In i l -> In i (active_set s (eb E b s))) ->
  supermajority (N.max (effective_sum s l) (EFFECTIVE_BALANCE_INCREMENT E)) (active_balance E s) = true ->
  2 * sumN w <= 3 * sumN (map (listed w) l) + 5 * drift.
Proof.
  intros Hn Hbig Hnd Hact Hs. unfold supermajority, active_balance in Hs. apply N.leb_le in Hs.
  destruct (Hn (eb E b s) l ltac:(destruct b; auto) Hnd) as [A _]. rewrite (stake_active s (eb E b s) l Hact) in A.
  destruct (Hn (epoch_of E s) (rangeN (lenN w)) (or_introl eq_refl) (NoDup_rangeN _)) as [_ B]. rewrite listed_range in B.
  pose proof (stake_le s (epoch_of E s) (rangeN (lenN w)) (NoDup_rangeN _)) as C. lia.
Qed.
Lemma four_bits (l : list bool) : lenN l = 4 -> exists b0 b1 b2 b3, l = [b0; b1; b2; b3].
Proof.
  intros H. destruct l as [|b0 [|b1 [|b2 [|b3 [|b4 l]]]]]; rewrite ?lenN_cons, ?lenN_nil in H; try discriminate; [eauto|]. lia.
Qed.
Lemma committee_active (E : Env) s sl c com j i : is_committee E s sl c com -> nthN com j = Some i -> In i (active_set s (sl / SLOTS_PER_EPOCH E)).
Proof. intros (seed & _ & _ & H) Hj. pose proof (nthN_some _ _ _ Hj) as Hl. rewrite (H j Hl) in Hj. eapply nthN_In; exact Hj. Qed.

(** ** upgrades *)
Definition up_same (s t : BeaconState) : Prop :=
  slot t = slot s /\ block_roots t = block_roots s /\ current_epoch_participation t = current_epoch_participation s
  /\ previous_epoch_participation t = previous_epoch_participation s /\ justification_bits t = justification_bits s
  /\ previous_justified_checkpoint t = previous_justified_checkpoint s /\ current_justified_checkpoint t = current_justified_checkpoint s
  /\ finalized_checkpoint t = finalized_checkpoint s.
Lemma us_refl s : up_same s s. Proof. repeat split. Qed.
Lemma us_trans a b c : up_same a b -> up_same b c -> up_same a c.
Proof. intros (A1&A2&A3&A4&A5&A6&A7&A8) (B1&B2&B3&B4&B5&B6&B7&B8). repeat split; congruence. Qed.
Lemma us_mod i g : pres up_same (mod_validator i g).
Proof. intros s. unfold mod_validator, sbind, rd, md. destruct (idx _ _); cbn [snd]; try apply us_refl. repeat split. Qed.
Lemma us_finish (E : Env) : pres up_same (electra_finish E).
Proof.
  unfold electra_finish, queue_entire_balance_and_reset_validator, queue_excess_active_balance.
  repeat first [apply pres_bind; [exact us_trans| |intros] | apply pres_rd; exact us_refl | apply pres_lift; exact us_refl
    | apply pres_for; [exact us_refl|exact us_trans|intros] | apply us_mod | apply pres_if | apply pres_ret; exact us_refl
    | apply pres_md; intros; repeat split].
Qed.
Lemma upgrade_same (E : Env) f g s t : chain_call E (f, s) (g, t) -> f <> g -> (f = Phase0 /\ g = Altair /\ upgrade_to_altair E s = Ok t) \/ (f <> Phase0 /\ g <> Phase0 /\ up_same s t).
Proof.
  intros H Hne. inversion H; subst; try contradiction; [left; auto|right; split; [discriminate|split; [discriminate|]]..].
  - match goal with H : upgrade_to_bellatrix _ _ = _ |- _ => unfold upgrade_to_bellatrix in H; apply rbind_ok_inv in H as (e & _ & H); apply Ok_inj in H; subst end. repeat split.
  - match goal with H : upgrade_to_capella _ _ = _ |- _ => unfold upgrade_to_capella in H; apply rbind_ok_inv in H as (e & _ & H); cbv zeta in H; apply Ok_inj in H; subst end. repeat split.
  - match goal with H : upgrade_to_deneb _ _ = _ |- _ => unfold upgrade_to_deneb in H; apply rbind_ok_inv in H as (e & _ & H); cbv zeta in H; apply Ok_inj in H; subst end. repeat split.
  - match goal with H : upgrade_to_electra _ _ = _ |- _ => rename H into H0 end.
    unfold upgrade_to_electra in H0. apply rbind_ok_inv in H0 as (e & _ & H0). apply rbind_ok_inv in H0 as (ee & _ & H0). apply rbind_ok_inv in H0 as (ec & _ & H0).
    pose proof (us_finish E (electra_base E e ee ec s)) as Hp. destruct (electra_finish E _) as [r post]. apply rbind_ok_inv in H0 as (u & _ & H0). apply Ok_inj in H0. subst t.
    cbn [snd] in Hp. eapply us_trans; [|exact Hp]. repeat split.
Qed.
(** what the participation that altair derives from phase0 votes consists of *)
Lemma translate_one_credit fl i : forall part part' j p, rfold (fun part f => let! q := idx part i in Ok (updN part i (add_flag q f))) fl part = Ok part' ->
  nthN part' j = Some p -> exists q, nthN part j = Some q /\ forall k, N.testbit p k = true -> N.testbit q k = true \/ (j = i /\ In k fl).
Proof.
  induction fl as [|f fl IH]; intros part part' j p H Hp; cbn [rfold] in H; [apply Ok_inj in H; subst; exists p; auto|].
  apply rbind_ok_inv in H as (m & H0 & H). apply rbind_ok_inv in H0 as (q0 & Hq0 & H0). apply Ok_inj in H0. subst m. destruct (IH _ _ _ _ H Hp) as (q & Q1 & Q2). apply idx_ok in Hq0.
  destruct (N.eq_dec j i) as [->|Hne].
  - rewrite nthN_updN_eq in Q1 by (eapply nthN_some; exact Hq0). injection Q1 as <-. exists q0. split; [exact Hq0|]. intros k Hk. destruct (Q2 k Hk) as [Hq|[_ Hq]]; [|right; split; [reflexivity|right; exact Hq]].
    unfold add_flag in Hq. rewrite N.lor_spec, N.pow2_bits_eqb in Hq. apply orb_true_iff in Hq as [Hq|Hq]; [auto|]. apply N.eqb_eq in Hq. subst. right. split; [reflexivity|left; reflexivity].
  - rewrite nthN_updN_ne in Q1 by congruence. exists q. split; [exact Q1|]. intros k Hk. destruct (Q2 k Hk) as [Hq|[Hq _]]; [auto|contradiction].
Qed.
Lemma translate_all_credit fl : forall is part part' j p, rfold (fun part i => translate_one fl i part) is part = Ok part' ->
  nthN part' j = Some p -> exists q, nthN part j = Some q /\ forall k, N.testbit p k = true -> N.testbit q k = true \/ (In j is /\ In k fl).
Proof.
  induction is as [|i is IH]; intros part part' j p H Hp; cbn [rfold] in H; [apply Ok_inj in H; subst; exists p; auto|].
  apply rbind_ok_inv in H as (m & H0 & H). destruct (IH _ _ _ _ H Hp) as (q & Q1 & Q2). destruct (translate_one_credit fl i part m j q H0 Q1) as (q' & R1 & R2).
  exists q'. split; [exact R1|]. intros k Hk. destruct (Q2 k Hk) as [Hq|[Hi Hf]]; [|right; split; [right|]; assumption].
  destruct (R2 k Hq) as [Hq'|[-> Hf]]; [auto|right; split; [left; reflexivity|exact Hf]].
Qed.
Lemma translate_credit (E : Env) b : forall l part part' j p, rfold (translate_attestation E b) l part = Ok part' -> nthN part' j = Some p ->
  exists q, nthN part j = Some q /\ forall k, N.testbit p k = true -> N.testbit q k = true
    \/ exists a fl is, In a l /\ get_attestation_participation_flag_indices E Altair b (pa_data a) (pa_inclusion_delay a) = Ok fl
         /\ get_attesting_indices E b (pa_data a) (pa_aggregation_bits a) = Ok is /\ In j is /\ In k fl.
Proof.
  induction l as [|a l IH]; intros part part' j p H Hp; cbn [rfold] in H; [apply Ok_inj in H; subst; exists p; auto|].
  apply rbind_ok_inv in H as (m & H0 & H). destruct (IH _ _ _ _ H Hp) as (q & Q1 & Q2). unfold translate_attestation in H0.
  apply rbind_ok_inv in H0 as (fl & Hfl & H0). apply rbind_ok_inv in H0 as (is & His & H0). destruct (translate_all_credit fl is part m j q H0 Q1) as (q' & R1 & R2).
  exists q'. split; [exact R1|]. intros k Hk. destruct (Q2 k Hk) as [Hq|(a' & fl' & is' & A1 & A2)]; [|right; exists a', fl', is'; split; [right; exact A1|exact A2]].
  destruct (R2 k Hq) as [Hq'|[Hi Hf]]; [auto|]. right. exists a, fl, is. split; [left; reflexivity|auto].
Qed.

(** ** links along one path *)
Section Path.
Context (E : Env).
Hypothesis Hchk : chk E = true.
Hypothesis Hc : ctx_sane E.
Hypothesis Ha : ctx_sane_att E.
Hypothesis Hce : ctx_sane_epoch E.
Hypothesis Hw : hash_wf (hash E).
Hypothesis Hm : mixes_last E.
Hypothesis Hspe : 2 <= SLOTS_PER_EPOCH E.
Context (bh : bytes) (ts : N) (ds : list Deposit) (hd : option ExecutionPayloadHeader) (p0 z : Fork * BeaconState) (tl : list (Fork * BeaconState)).
Notation tr := (z :: tl).
Hypothesis Hwalk : walk E p0 tr.
Hypothesis Hgen : initialize_beacon_state_from_eth1 E (fst p0) bh ts ds hd = Ok (snd p0).
Hypothesis Hn : lenN (validators (snd z)) <= 2 ^ 40.
Hypothesis Hsz : slot (snd z) < 2 ^ 56.

Definition supported (i : N) (src : Checkpoint) (e : N) (P : Root -> Prop) : Prop :=
  exists ia, signed_on E tr i ia /\ ad_source (ia_data ia) = src /\ cp_epoch (ad_target (ia_data ia)) = e /\ P (cp_root (ad_target (ia_data ia))).
Context (w : list N) (drift : N).
Definition link (src tgt : Checkpoint) : Prop :=
  starts_epoch E tr (cp_epoch tgt) (cp_root tgt)
  /\ exists l, NoDup l /\ 2 * sumN w <= 3 * sumN (map (listed w) l) + 5 * drift
     /\ forall i, In i l -> exists ia, signed_on E tr i ia /\ ad_source (ia_data ia) = src /\ ad_target (ia_data ia) = tgt.
Inductive just : Checkpoint -> Prop := just_link src c : cp_epoch src = 0 \/ just src -> link src c -> just c.
Definition final (c : Checkpoint) : Prop :=
  just c /\ ((exists r, link c (mkCheckpoint (cp_epoch c + 1) r)) \/ ((exists r, link c (mkCheckpoint (cp_epoch c + 2) r)) /\ exists r, just (mkCheckpoint (cp_epoch c + 1) r))).

(** the votes a state records are signed *)
Record VInv (q : Fork * BeaconState) : Prop := {
  i_votes : forall b i k r, held E (fst q) (snd q) b i k r ->
    eb E b (snd q) * SLOTS_PER_EPOCH E < slot (snd q) /\ supported i (jb b (snd q)) (eb E b (snd q)) (fun x => k = 0 \/ x = r);
  i_early : epoch_of E (snd q) <= 1 -> previous_justified_checkpoint (snd q) = current_justified_checkpoint (snd q) }.
(** its checkpoints are supported by links *)
Record Inv (q : Fork * BeaconState) : Prop := {
  i_early_bits : epoch_of E (snd q) <= 2 -> nth 0 (justification_bits (snd q)) false = false /\ nth 1 (justification_bits (snd q)) false = false;
  i_cur : cp_epoch (current_justified_checkpoint (snd q)) = 0 \/ just (current_justified_checkpoint (snd q));
  i_prev : cp_epoch (previous_justified_checkpoint (snd q)) = 0 \/ just (previous_justified_checkpoint (snd q));
  i_bit0 : nth 0 (justification_bits (snd q)) false = true -> exists r, link (previous_justified_checkpoint (snd q)) (mkCheckpoint (epoch_of E (snd q) - 1) r);
  i_bit1 : nth 1 (justification_bits (snd q)) false = true -> exists r, just (mkCheckpoint (epoch_of E (snd q) - 2) r);
  i_fin : cp_epoch (finalized_checkpoint (snd q)) = 0 \/ final (finalized_checkpoint (snd q)) }.

Lemma vinv_genesis : VInv p0.
Proof.
  apply (genesis_fresh E Hc Ha) in Hgen as (F1 & F2 & F3 & F4 & F5 & F6 & F7 & F8). constructor; rewrite ?F4, ?F5; auto.
  intros b i k r Hh. exfalso. destruct p0 as [f s]. cbn [fst snd] in *.
  assert (G : f <> Phase0 -> forall p, nthN (participation b s) i = Some p -> N.testbit p k = true -> False).
  { intros _ p Hp Hk. apply nthN_In in Hp. assert (p = 0) by (apply F8; destruct b; auto). subst p. rewrite N.bits_0 in Hk. discriminate. }
  destruct f; cbn [held] in Hh; [|destruct Hh as (p & P1 & P2 & _); eapply G; eauto; discriminate..].
  destruct Hh as (a & com & j & A1 & _). destruct b; cbn [atts] in A1; [rewrite F2 in A1|rewrite F3 in A1]; destruct A1.
Qed.
Lemma inv_genesis : Inv p0.
Proof.
  apply (genesis_fresh E Hc Ha) in Hgen as (F1 & F2 & F3 & F4 & F5 & F6 & F7 & F8). constructor; rewrite ?F4, ?F5, ?F6, ?F7; auto; discriminate.
Qed.
Lemma inv_same p q : epoch_of E (snd q) = epoch_of E (snd p) -> justification_bits (snd q) = justification_bits (snd p) ->
  previous_justified_checkpoint (snd q) = previous_justified_checkpoint (snd p) -> current_justified_checkpoint (snd q) = current_justified_checkpoint (snd p) ->
  finalized_checkpoint (snd q) = finalized_checkpoint (snd p) -> Inv p -> Inv q.
Proof. intros H1 H2 H3 H4 H5 [I3 I4 I5 I6 I7 I8]. constructor; rewrite ?H1, ?H2, ?H3, ?H4, ?H5; assumption. Qed.

(** numbers of the final state bound those of the path *)
Lemma chain_slot p q : chain E p q -> slot (snd p) <= slot (snd q).
Proof.
  intros H. destruct (N.eq_dec (slot (snd p)) 0) as [->|H0]; [apply N.le_0_l|]. apply (chain_kept E Hc 0) in H. apply (proj1 (H ltac:(lia))).
Qed.
Lemma path_len q : In q tr -> lenN (validators (snd q)) <= 2 ^ 40 /\ slot (snd q) < 2 ^ 56.
Proof.
  intros Hq. destruct (walk_chain E Hc p0 tr Hwalk q Hq) as [_ H]. specialize (H z tl eq_refl). split; [|pose proof (chain_slot q z H); lia]. apply chain_history, history_across in H as [H _].
  destruct (N.le_gt_cases (lenN (validators (snd q))) (lenN (validators (snd z)))) as [Hle|Hgt]; [lia|].
  destruct (nthN_lt (validators (snd q)) (lenN (validators (snd z))) Hgt) as [v Hv]. destruct (H _ _ Hv) as (v' & Hv' & _). apply nthN_some in Hv'. lia.
Qed.

Lemma path_on f s : In (f, s) tr -> on_chain E f s.
Proof. intros H. apply (walk_chain E Hc p0 tr Hwalk) in H as [H _]. destruct p0 as [f0 s0]. exists f0, bh, ts, ds, hd, s0. split; assumption. Qed.
Lemma istep_block f s b r t : In (f, s) tr -> process_block E f b s = (r, t) -> In (f, t) tr -> (VInv (f, s) -> VInv (f, t)) /\ (Inv (f, s) -> Inv (f, t)).
Proof.
  intros Hp H Hz. cbn [fst snd] in *.
  destruct Hm as [HL HV]. destruct (path_len (f, t) Hz) as [L1 L2]. cbn [snd] in L1, L2. destruct (path_len (f, s) Hp) as [M1 M2]. cbn [snd] in M1, M2.
  assert (Hsh : vectors_sized E s).
  { pose proof (path_on f s Hp) as Ho.
    destruct (on_chain_shape E f s Ho M1) as (? & ? & ? & ? & ? & ?); repeat split; assumption. }
  pose proof (in_block_block E Hchk Hc Ha Hw HL HV f b s r t H) as B.
  assert (He : epoch_of E t = epoch_of E s) by (unfold epoch_of; rewrite (ib_slot _ _ _ _ B); reflexivity).
  split; [|destruct B; apply inv_same; assumption]. intros [I1 I2]. cbn [fst snd] in *.
  constructor; cbn [fst snd]; rewrite ?(ib_cur _ _ _ _ B), ?(ib_prev _ _ _ _ B), ?He; auto.
  intros x i k rr Hh. assert (Hj : jb x t = jb x s) by (unfold jb; rewrite (ib_cur _ _ _ _ B), (ib_prev _ _ _ _ B); reflexivity).
  pose proof (eb_slot E x s t (ib_slot _ _ _ _ B)) as Hee.
  destruct (ib_votes _ _ _ _ B Hsh L1 L2 x i k rr Hh) as [Hs|(ia & (S1 & S2) & S3 & S4 & S5 & S6)].
  - rewrite Hj, Hee, (ib_slot _ _ _ _ B). apply I1. exact Hs.
  - split; [exact S6|]. exists ia. split; [split; [exact S1|]|auto]. exists f, t. split; [exact Hz|exact S2].
Qed.
Lemma slot_call f s t : slot s + 1 < U64 -> advance_slot E f s = (Ok tt, t) -> chain_call E (f, s) (f, t).
Proof.
  intros Hb H. apply (chain_slots E f (slot s + 1)); [rewrite U64_val in Hb; pows; lia|]. rewrite process_slots_loop by lia.
  replace (N.to_nat (slot s + 1 - slot s)) with 1%nat by lia. rewrite loop_step by lia. unfold sbind. rewrite H.
  apply loop_done. destruct (advance_inv E Hc f s t Hb H) as (s1 & s2 & _ & _ & _ & S2 & ->). gs. lia.
Qed.
(** the first slot of the previous epoch is still in the window of block roots *)
Lemma window_fits b s : slot s + 1 <= eb E b s * SLOTS_PER_EPOCH E + SLOTS_PER_HISTORICAL_ROOT E.
Proof.
  destruct Ha as (_ & H2 & _). assert (Hz : SLOTS_PER_EPOCH E <> 0) by lia. pose proof (N.div_mod' (slot s) (SLOTS_PER_EPOCH E)) as Hd. pose proof (N.mod_lt (slot s) (SLOTS_PER_EPOCH E) Hz).
  assert (Hle : (epoch_of E s - 1) * SLOTS_PER_EPOCH E <= eb E b s * SLOTS_PER_EPOCH E) by (apply N.mul_le_mono_r; unfold eb, prev_epoch_of; destruct b; lia).
  assert (Hle2 : epoch_of E s * SLOTS_PER_EPOCH E <= (epoch_of E s - 1) * SLOTS_PER_EPOCH E + SLOTS_PER_EPOCH E).
  { rewrite <- (N.mul_1_l (SLOTS_PER_EPOCH E)) at 3. rewrite <- N.mul_add_distr_r. apply N.mul_le_mono_r. lia. }
  unfold epoch_of in Hle2 at 1. rewrite (N.mul_comm (SLOTS_PER_EPOCH E)) in Hd. lia.
Qed.
(** a vote of a state was there before the slot, perhaps for another root *)
Lemma advance_holds f s t b i k r : slot s + 1 < U64 -> (slot s + 1) mod SLOTS_PER_EPOCH E <> 0 -> advance_slot E f s = (Ok tt, t) -> vectors_sized E s ->
  slot t < 2 ^ 56 -> held E f t b i k r -> exists r', held E f s b i k r'.
Proof.
  intros Hu Hb H Hz Hs Hh. destruct Hm as [HL HV]. destruct (advance_in_epoch E Hc HL HV f s t Hu Hb H) as (s1 & [S1 S2 S3 S4 S5 S6 S7 S8] & Ht & He).
  assert (Hee : eb E b t = eb E b s) by (unfold eb, prev_epoch_of; rewrite He; reflexivity). pose proof (eb_le E HL HV b s) as Hle.
  assert (L : looks E s t) by (apply (looks_history E Hchk (f, s) (f, t)), chain_history, rt_step, (slot_call f s t); assumption).
  destruct (Fork_eq_dec f Phase0) as [->|Hf].
  - exists r. refine (held_back E Hc HL HV Phase0 s t b b i k r L Hs Hee _ _ _ _ _ Hh); try lia; try contradiction.
    intros _. rewrite <- S4, Ht. destruct b; apply incl_refl.
  - assert (Hp : exists p, nthN (participation b t) i = Some p /\ N.testbit p k = true) by (destruct f; [contradiction|..]; destruct Hh as (p & P1 & P2 & _); eauto).
    destruct Hp as (p & P1 & P2). assert (Hpp : participation b t = participation b s) by (rewrite <- S5, Ht; destruct b; reflexivity). rewrite Hpp in P1.
    destruct (nthN_lt (block_roots s) ((eb E b s * SLOTS_PER_EPOCH E) mod SLOTS_PER_HISTORICAL_ROOT E)) as [r' Hr'].
    { rewrite (proj1 Hz). apply N.mod_lt. ctxs Hc. lia. }
    exists r'. destruct f; [contradiction|..]; exists p; auto.
Qed.

Lemma istep_slot f s t : In (f, s) tr -> slot s + 1 < U64 -> advance_slot E f s = (Ok tt, t) -> (slot s + 1) mod SLOTS_PER_EPOCH E <> 0 ->
  In (f, t) tr -> (VInv (f, s) -> VInv (f, t)) /\ (Inv (f, s) -> Inv (f, t)).
Proof.
  intros Hp Hu H Hb Hz.
  destruct Hm as [HL HV]. destruct (path_len (f, t) Hz) as [L1 L2]. cbn [snd] in L1, L2.
  destruct (advance_in_epoch E Hc HL HV f s t Hu Hb H) as (s1 & [S1 S2 S3 S4 S5 S6 S7 S8] & Ht & He).
  assert (Hee : forall b, eb E b t = eb E b s) by (intros b; unfold eb, prev_epoch_of; rewrite He; reflexivity).
  assert (Hj : forall b, jb b t = jb b s) by (intros b; rewrite <- S6, Ht; destruct b; reflexivity).
  pose proof (Hj true) as J1. pose proof (Hj false) as J2. cbn [jb] in J1, J2.
  assert (Jf : finalized_checkpoint t = finalized_checkpoint s) by (rewrite <- S7, Ht; reflexivity).
  assert (Jb : justification_bits t = justification_bits s) by (rewrite <- S8, Ht; reflexivity).
  split; [|apply inv_same; assumption]. intros [I1 I2]. cbn [fst snd] in *.
  constructor; cbn [fst snd]; rewrite ?J1, ?J2, ?He; auto.
  intros b i k r Hh. pose proof (eb_le E HL HV b s) as Hle.
  assert (Hst : slot t = slot s + 1) by (rewrite Ht; reflexivity).
  assert (L : looks E s t) by (apply (looks_history E Hchk (f, s) (f, t)), chain_history, rt_step, (slot_call f s t); assumption).
  assert (Hlt : eb E b s * SLOTS_PER_EPOCH E < slot s).
  { destruct (N.lt_ge_cases (eb E b s * SLOTS_PER_EPOCH E) (slot s)) as [Hlt|Hge]; [exact Hlt|exfalso].
    destruct (advance_holds f s t b i k r Hu Hb H) as (r' & Hr'); [|exact L2|exact Hh|].
    { destruct (on_chain_shape E f s (path_on f s Hp)) as (? & ? & ? & ? & ? & ?); [|repeat split; assumption].
      apply (path_len (f, s)). exact Hp. }
    apply I1 in Hr' as [Hr' _]. lia. }
  assert (Hroot : recorded_root E t (eb E b s * SLOTS_PER_EPOCH E) = recorded_root E s (eb E b s * SLOTS_PER_EPOCH E)).
  { destruct (kept_advance E Hc (eb E b s * SLOTS_PER_EPOCH E) f s t Hu H Hlt) as [_ K]. apply K. rewrite Hst. apply window_fits. }
  assert (Hs : held E f s b i k r).
  { refine (held_back E Hc HL HV f s t b b i k r L L2 (Hee b) _ _ _ _ _ Hh); try lia.
    - intros _. rewrite <- S4, Ht. destruct b; apply incl_refl.
    - intros _. rewrite Hee. exact Hroot.
    - intros _ p P1 P2. exists p. rewrite <- S5. rewrite Ht in P1. split; [destruct b; exact P1|exact P2]. }
  rewrite Hee, Hj, Hst. destruct (I1 _ _ _ _ Hs) as [V1 V2]. split; [lia|exact V2].
Qed.

(** *** epoch boundaries *)
Lemma vstep_epoch f s t : In (f, s) tr -> (slot s + 1) mod SLOTS_PER_EPOCH E = 0 -> advance_slot E f s = (Ok tt, t) ->
  In (f, t) tr -> VInv (f, s) -> VInv (f, t).
Proof.
  intros Hp Hb Had Htz HI. destruct (path_len (f, s) Hp) as [L1 L2]. destruct (path_len (f, t) Htz) as [T1 T2]. cbn [snd] in L1, L2, T1, T2. destruct Hm as [HL HV].
  assert (Hu : slot s + 1 < U64) by (rewrite U64_val; pows; lia).
  pose proof (path_on f s Hp) as Ho. pose proof (on_chain_shape E f s Ho L1) as Hsh.
  destruct (advance_epoch E Hc HL HV f s t Hce L2 Hb Had) as (s1 & s2 & HS & Hps & Hpe & Ht & He & Hr2 & Hv0 & HvA).
  destruct (boundary_epoch E Hc HL HV (slot s) Hb) as (B1 & B2 & B3).
  pose proof HS as [S1 S2 S3 S4 S5 S6 S7 S8].
  assert (Hes : epoch_of E s1 = epoch_of E s) by (unfold epoch_of; rewrite S1; reflexivity).
  assert (Hst' : slot t = slot s + 1) by (rewrite Ht; reflexivity).
  assert (Hbr : block_roots t = block_roots s1) by (rewrite Ht; gs; exact Hr2).
  assert (L : looks E s t) by (apply (looks_history E Hchk (f, s) (f, t)), chain_history, rt_step, (slot_call f s t); assumption).
  assert (Hpt : prev_epoch_of E t = epoch_of E s) by (unfold prev_epoch_of; clear - He; lia).
  assert (Hlt : epoch_of E s * SLOTS_PER_EPOCH E < slot s).
  { change (slot s / SLOTS_PER_EPOCH E) with (epoch_of E s) in B2. rewrite N.mul_add_distr_r in B2. lia. }
  assert (Hvotes : forall b i k r, held E f t b i k r -> b = false /\ held E f s true i k r).
  { intros b i k r Hh. destruct b.
    - exfalso. destruct (Fork_eq_dec f Phase0) as [->|Hf].
      + destruct (Hv0 eq_refl) as [_ H0]. destruct Hh as (a & com & j & A1 & _). rewrite H0 in A1. destruct A1.
      + destruct (HvA Hf) as [_ H0]. assert (Hq : exists p, nthN (participation true t) i = Some p /\ N.testbit p k = true) by (destruct f; [contradiction|..]; destruct Hh as (p & P1 & P2 & _); eauto).
        destruct Hq as (p & P1 & P2). rewrite H0 in P1. apply nthN_In in P1. unfold repeatN in P1. apply repeat_spec in P1. subst p. rewrite N.bits_0 in P2. discriminate.
    - split; [reflexivity|]. refine (held_back E Hc HL HV f s t false true i k r L T2 Hpt _ _ _ _ _ Hh); cbn [eb]; try lia.
      + intros Hf. rewrite (proj1 (Hv0 Hf)). apply incl_refl.
      + intros _. rewrite Hpt. destruct (kept_advance E Hc (epoch_of E s * SLOTS_PER_EPOCH E) f s t Hu Had Hlt) as [_ K]. apply K. rewrite Hst'. apply (window_fits true s).
      + intros Hf p P1 P2. rewrite (proj1 (HvA Hf)) in P1. eauto. }
  assert (Ht1 : previous_justified_checkpoint t = previous_justified_checkpoint s2) by (rewrite Ht; reflexivity).
  assert (Ht2 : current_justified_checkpoint t = current_justified_checkpoint s2) by (rewrite Ht; reflexivity).
  pose proof (S6 true) as J1. pose proof (S6 false) as J2. cbn [jb] in J1, J2.
  assert (Hpj : previous_justified_checkpoint t = current_justified_checkpoint s).
  { rewrite Ht1. destruct (N.le_gt_cases (epoch_of E s) 1) as [Hearly|Hlate].
    - destruct (epoch_early E Hc HL HV f s1 s2 ltac:(rewrite Hes; exact Hearly) Hpe) as [-> _]. rewrite J2. apply (i_early _ HI). exact Hearly.
    - rewrite (epoch_prev_justified E Hc HL HV f s1 s2 ltac:(rewrite Hes; exact Hlate) Hpe). exact J1. }
  constructor; cbn [fst snd].
  - intros b i k r Hh. destruct (Hvotes b i k r Hh) as [-> Hh']. destruct (i_votes _ HI true i k r Hh') as [V1 V2]. cbn [eb jb snd] in V1, V2 |- *. rewrite Hpt, Hpj, Hst'. split; [clear - V1; lia|exact V2].
  - intros He1. rewrite Hpj, Ht2. destruct (epoch_early E Hc HL HV f s1 s2 ltac:(rewrite Hes; clear - He He1; lia) Hpe) as [_ ->]. symmetry. exact J1.
Qed.
Lemma step_altair s t : In (Phase0, s) tr -> upgrade_to_altair E s = Ok t -> VInv (Phase0, s) -> VInv (Altair, t).
Proof.
  intros Hp Hup HI. destruct (path_len (Phase0, s) Hp) as [L1 L2]. cbn [snd] in L1, L2. destruct Hm as [HL HV].
  pose proof (path_on Phase0 s Hp) as Ho. pose proof (on_chain_shape E Phase0 s Ho L1) as Hsh. destruct (C97_votes_stay_valid E s Hchk Hc Ha Hw Hm Ho L1 L2) as [_ W].
  unfold upgrade_to_altair, translate_participation in Hup. apply rbind_ok_inv in Hup as (e & _ & Hup). apply rbind_ok_inv in Hup as (post & Hpost & Hup).
  apply rbind_ok_inv in Hpost as (part & Hpart & Hpost). apply Ok_inj in Hpost. subst post. apply rbind_ok_inv in Hup as (c & _ & Hup). apply Ok_inj in Hup. subst t.
  destruct HI as [I1 I2]. cbn [fst snd] in *. constructor; cbn [fst snd]; [|assumption].
  intros b i k r (p & P1 & P2 & P3). destruct b; cbn [participation] in P1.
  { exfalso. gsh P1. unfold altair_base in P1. cbn [current_epoch_participation] in P1. apply nthN_In in P1. unfold repeatN in P1. apply repeat_spec in P1. subst p. rewrite N.bits_0 in P2. discriminate. }
  gsh P1. destruct (translate_credit E _ _ _ _ _ _ Hpart P1) as (q & Q1 & Q2). destruct (Q2 k P2) as [Hq|(a & fl & is & A1 & A2 & A3 & A4 & A5)].
  { exfalso. unfold altair_base in Q1. cbn [previous_epoch_participation] in Q1. apply nthN_In in Q1. unfold repeatN in Q1. apply repeat_spec in Q1. subst q. rewrite N.bits_0 in Hq. discriminate. }
  destruct (W a A1) as ((W1 & W2 & com & W3 & W4) & W5 & _ & _ & W6).
  destruct (flags_inv E Hchk Hc _ _ _ _ _ A2) as (_ & tr & _ & R2 & R3). rewrite W6 in R2. 
  assert (Htr : Some tr = Some r) by (rewrite <- R2, <- P3; reflexivity). injection Htr as ->.
  assert (Hcom : get_beacon_committee E (altair_base E e s) (ad_slot (pa_data a)) (ad_index (pa_data a)) = Ok com).
  { apply (committee_spec E Hc Hw); [exact Hsh|clear - W1; pows; lia|exact W2|exact W3]. }
  unfold get_attesting_indices in A3. rewrite Hcom in A3. cbn [rbind] in A3. destruct (negb _); [discriminate|]. apply Ok_inj in A3. subst is.
  apply In_dedupN, In_select_bits in A4 as (j & J1 & J2).
  assert (Hh : held E Phase0 s false i k (cp_root (ad_target (pa_data a)))) by (exists a, com, j; auto 8).
  destruct (I1 false i k _ Hh) as [V1 (ia & S1 & S2 & S3 & S4)]. split; [exact V1|]. exists ia. split; [exact S1|]. split; [exact S2|]. split; [exact S3|].
  destruct S4 as [S4|S4]; [left; exact S4|]. destruct (R3 k A5) as [R4|R4]; [left; exact R4|right; congruence].
Qed.
Lemma vstep_upgrade f g s t : In (f, s) tr -> chain_call E (f, s) (g, t) -> f <> g -> VInv (f, s) -> VInv (g, t).
Proof.
  intros Hp Hcall Hne HI. destruct (upgrade_same E f g s t Hcall Hne) as [(-> & -> & Hup)|(Hf & Hg & U1 & U2 & U3 & U4 & U5 & U6 & U7 & U8)]; [eapply step_altair; eauto|].
  destruct HI as [I1 I2]. cbn [fst snd] in *. assert (He : epoch_of E t = epoch_of E s) by (unfold epoch_of; rewrite U1; reflexivity).
  constructor; cbn [fst snd]; rewrite ?U6, ?U7, ?He; auto.
  intros b i k r Hh. rewrite (eb_slot E b s t U1), U1. assert (Hj : jb b t = jb b s) by (unfold jb; rewrite U6, U7; reflexivity). rewrite Hj. apply (I1 b i k r).
  assert (Hq : exists p, nthN (participation b t) i = Some p /\ N.testbit p k = true /\ recorded_root E t (eb E b t * SLOTS_PER_EPOCH E) = Some r) by (destruct g; [contradiction|exact Hh..]).
  destruct Hq as (p & P1 & P2 & P3).
  assert (Hq : exists p, nthN (participation b s) i = Some p /\ N.testbit p k = true /\ recorded_root E s (eb E b s * SLOTS_PER_EPOCH E) = Some r).
  { exists p. split; [destruct b; cbn [participation] in P1 |- *; congruence|]. split; [exact P2|]. unfold recorded_root in *. rewrite <- U2, <- (eb_slot E b s t U1). exact P3. }
  destruct f; [contradiction|exact Hq..].
Qed.
Theorem vinv_path q : In q tr -> VInv q.
Proof.
  revert q. apply (walk_ind2 E Hc p0 tr VInv Hwalk vinv_genesis). intros p q Hp Hq Hf HI. destruct Hf as [f s t Hu H|f b s r t H|f g s t H Hne].
  - destruct (N.eq_dec ((slot s + 1) mod SLOTS_PER_EPOCH E) 0) as [Hb|Hb]; [apply (vstep_epoch f s t); assumption|apply (istep_slot f s t); assumption].
  - apply (istep_block f s b r t); assumption.
  - apply (vstep_upgrade f g s t); assumption.
Qed.

(** *** links *)
Hypothesis Hst : steady_stake E w drift tr.
Hypothesis Hbig : 3 * EFFECTIVE_BALANCE_INCREMENT E + 2 * drift < 2 * sumN w.

Lemma epoch_link f s s1 t b wt : In (f, s) tr -> (slot s + 1) mod SLOTS_PER_EPOCH E = 0 -> 1 < epoch_of E s ->
  slot_same s s1 -> advance_slot E f s = (Ok tt, t) -> block_roots t = block_roots s1 -> In (f, t) tr -> VInv (f, s) ->
  target_weight E f s1 (eb E b s) wt -> supermajority wt (active_balance E s1) = true -> link (jb b s) (checkpoint_of E s1 (eb E b s)).
Proof.
  intros Hp Hb He HS Had Hbr Htz HI (l & Hnd & Hl & ->) Hsup. destruct (path_len (f, s) Hp) as [L1 L2]. cbn [snd] in L1, L2. destruct Hm as [HL HV].
  assert (Hu : slot s + 1 < U64) by (rewrite U64_val; pows; lia).
  pose proof (path_on f s Hp) as Ho. pose proof (on_chain_shape E f s Ho L1) as Hsh.
  destruct (boundary_epoch E Hc HL HV (slot s) Hb) as (B1 & B2 & B3).
  assert (Hst' : slot t = slot s + 1) by (destruct (advance_inv E Hc f s t Hu Had) as (x1 & x2 & _ & _ & _ & S2 & ->); gs; lia).
  pose proof (eb_le E HL HV b s) as Hle.
  assert (Hlt : eb E b s * SLOTS_PER_EPOCH E < slot s).
  { assert (Hmul : eb E b s * SLOTS_PER_EPOCH E <= epoch_of E s * SLOTS_PER_EPOCH E) by (apply N.mul_le_mono_r; lia). change (slot s / SLOTS_PER_EPOCH E) with (epoch_of E s) in B2. rewrite N.mul_add_distr_r in B2. lia. }
  pose proof (window_fits b s) as Hwin.
  assert (Hroot : recorded_root E s1 (eb E b s * SLOTS_PER_EPOCH E) = recorded_root E s (eb E b s * SLOTS_PER_EPOCH E)).
  { destruct (kept_advance E Hc (eb E b s * SLOTS_PER_EPOCH E) f s t Hu Had Hlt) as [_ K]. unfold recorded_root. rewrite <- Hbr. apply K. rewrite Hst'. exact Hwin. }
  destruct (nthN_lt (block_roots s) ((eb E b s * SLOTS_PER_EPOCH E) mod SLOTS_PER_HISTORICAL_ROOT E)) as [r Hr].
  { rewrite (proj1 Hsh). apply N.mod_lt. ctxs Hc. lia. }
  fold (recorded_root E s (eb E b s * SLOTS_PER_EPOCH E)) in Hr.
  assert (Hck : checkpoint_of E s1 (eb E b s) = mkCheckpoint (eb E b s) r) by (unfold checkpoint_of; rewrite Hroot, Hr; reflexivity). rewrite Hck.
  destruct HS as [S1 S2 S3 S4 S5 S6 S7 S8].
  assert (Hes : epoch_of E s1 = epoch_of E s) by (unfold epoch_of; rewrite S1; reflexivity).
  assert (Hvote : forall i, In i l -> In i (active_set s (eb E b s)) /\ held E f s b i 1 r).
  { intros i Hi. apply Hl in Hi as (v & V1 & _ & V2). rewrite S2 in V1.
    assert (Hsel : (eb E b s =? epoch_of E s1) = b) by (rewrite Hes; unfold eb, prev_epoch_of in *; destruct b; [apply N.eqb_refl|apply N.eqb_neq; lia]). rewrite Hsel in V2.
    destruct (Fork_eq_dec f Phase0) as [->|Hf].
    - destruct V2 as (a & com & k & A1 & A2 & A3 & A4 & A5). rewrite Hroot, Hr in A2. injection A2 as A2.
      assert (A3' : is_committee E s (ad_slot (pa_data a)) (ad_index (pa_data a)) com).
      { unfold is_committee, is_attester_seed, committees_in_slot, active_set in A3 |- *. rewrite S2, S3 in A3. exact A3. }
      change (if b then current_epoch_attestations s1 else previous_epoch_attestations s1) with (atts b s1) in A1. rewrite S4 in A1.
      assert (Hsl : ad_slot (pa_data a) / SLOTS_PER_EPOCH E = eb E b s).
      { destruct (C97_votes_stay_valid E s Hchk Hc Ha Hw Hm Ho L1 L2) as [W1 W2]. unfold eb, atts in *. destruct b; [apply (W1 a A1)|apply (W2 a A1)]. }
      split; [rewrite <- Hsl; eapply committee_active; eauto|]. exists a, com, k. auto 8.
    - assert (V2' : active_at (eb E b s) v = true /\ exists p, nthN (participation b s1) i = Some p /\ N.testbit p 1 = true) by (destruct f; [contradiction|destruct b; exact V2..]).
      destruct V2' as (V3 & p & P1 & P2). rewrite S5 in P1. split; [apply In_active_set; eauto|]. destruct f; [contradiction|..]; exists p; auto. }
  split.
  - exists f, t. cbn [cp_epoch cp_root]. split; [exact Htz|].
    rewrite Hst'. split; [lia|]. split; [exact Hwin|]. unfold recorded_root in *. rewrite Hbr, Hroot. exact Hr.
  - exists l. split; [exact Hnd|]. split.
    + apply (weight_table E w drift s b l); auto.
      * apply (Hst f s); [exact Hp|exact Hb].
      * intros i Hi. apply Hvote. exact Hi.
      * unfold supermajority, active_balance, effective_sum, effective_balance_of, active_set, epoch_of in Hsup |- *. rewrite S2, S1 in Hsup. exact Hsup.
    + intros i Hi. destruct (Hvote i Hi) as [_ Hh]. destruct (i_votes _ HI b i 1 r Hh) as [_ (ia & I1 & I2 & I3 & I4)]. cbn [snd] in *. exists ia.
      split; [exact I1|]. split; [exact I2|]. destruct I4 as [I4|I4]; [discriminate|]. destruct (ad_target (ia_data ia)) as [te tr]. cbn [cp_epoch cp_root] in *. congruence.
Qed.

Lemma step_epoch f s t : In (f, s) tr -> (slot s + 1) mod SLOTS_PER_EPOCH E = 0 -> advance_slot E f s = (Ok tt, t) ->
  In (f, t) tr -> VInv (f, s) -> Inv (f, s) -> Inv (f, t).
Proof.
  intros Hp Hb Had Htz HVI HI. destruct (path_len (f, s) Hp) as [L1 L2]. destruct (path_len (f, t) Htz) as [T1 T2]. cbn [snd] in L1, L2, T1, T2. destruct Hm as [HL HV].
  assert (Hu : slot s + 1 < U64) by (rewrite U64_val; pows; lia).
  pose proof (path_on f s Hp) as Ho. pose proof (on_chain_shape E f s Ho L1) as Hsh.
  destruct (advance_epoch E Hc HL HV f s t Hce L2 Hb Had) as (s1 & s2 & HS & Hps & Hpe & Ht & He & Hr2 & Hv0 & HvA).
  destruct (boundary_epoch E Hc HL HV (slot s) Hb) as (B1 & B2 & B3).
  pose proof HS as [S1 S2 S3 S4 S5 S6 S7 S8].
  assert (Hes : epoch_of E s1 = epoch_of E s) by (unfold epoch_of; rewrite S1; reflexivity).
  assert (Hst' : slot t = slot s + 1) by (rewrite Ht; reflexivity).
  assert (Hbr : block_roots t = block_roots s1) by (rewrite Ht; gs; exact Hr2).
  (* the checkpoints *)
  assert (Hsh1 : state_shape E s1).
  { pose proof (evo_sized E f s s1) as Hz. pose proof (evpa_of E f LSlot _ (evp_slot E f) s) as Q. rewrite Hps in Q. specialize (Hz Q).
    destruct Hsh as (Z1 & Z2 & Z3 & Z4 & Z5 & Z6). destruct Hz as (Y1 & Y2 & Y3 & Y4 & Y5); [repeat split; assumption|]. unfold state_shape. rewrite S2. repeat split; assumption. }
  assert (Hss1 : slot_small s1) by (unfold slot_small; rewrite S1; exact L2).
  assert (Hm1 : 0 < slot s1 mod SLOTS_PER_EPOCH E) by (rewrite S1, B3; lia).
  assert (Hvr : votes_recorded E f s1).
  { pose proof (on_chain_votes E f s (fun _ => conj Hchk Hm) Hc Ha Hw Ho L1 L2) as V. pose proof (S4 true) as A1. pose proof (S4 false) as A2. pose proof (S5 true) as A3. pose proof (S5 false) as A4.
    cbn [atts participation] in A1, A2, A3, A4. destruct f; cbn [votes_recorded] in V |- *; rewrite ?A1, ?A2, ?A3, ?A4; [|rewrite S2; exact V..].
    intros a Ha'. specialize (V a Ha'). unfold pending_recorded, is_committee, is_attester_seed, committees_in_slot, active_set in V |- *. rewrite S2, S3. exact V. }
  assert (Hsf : stake_fits s1) by (unfold stake_fits; rewrite S2; apply (Hst f s); [exact Hp|exact Hb]).
  pose proof (C97_finality_ordered E f s Hc Ha Ho) as (O1 & O2 & O3).
  assert (Hel : epoch_of E s < 2 ^ 56) by (apply (epoch_bound E Hc HL HV); exact L2).
  pose proof (S6 true) as J1. pose proof (S6 false) as J2. cbn [jb] in J1, J2.
  assert (Hjs : justified_small s1) by (clear - O2 O3 Hel J1 J2; unfold justified_small, prev_epoch_of in *; rewrite J1, J2; pows; lia).
  destruct (C16_process E f s1 Hc Ha Hw Hsh1 Hss1 Hm1 Hvr Hsf Hjs) as [Cearly Clate]. rewrite Hes in Cearly, Clate.
  rewrite epoch_split in Hpe. apply sbind_ok_inv in Hpe as ([] & m & Hjf & Htail).
  pose proof (evp_tail E f false m) as Q. rewrite Htail in Q. cbn [snd] in Q.
  destruct (frame_finality E f _ _ _ Q ltac:(discriminate)) as (F1 & F2 & F3 & F4). clear Q.
  assert (K1 : justification_bits t = justification_bits m) by (rewrite Ht; gs; exact F1).
  assert (K2 : previous_justified_checkpoint t = previous_justified_checkpoint m) by (rewrite Ht; gs; exact F2).
  assert (K3 : current_justified_checkpoint t = current_justified_checkpoint m) by (rewrite Ht; gs; exact F3).
  assert (K4 : finalized_checkpoint t = finalized_checkpoint m) by (rewrite Ht; gs; exact F4).
  clear F1 F2 F3 F4 Htail Hr2.
  destruct (N.le_gt_cases (epoch_of E s) 1) as [Hearly|Hlate].
  - rewrite (Cearly Hearly) in Hjf. injection Hjf as <-. rewrite ?S8, ?J1, ?J2, ?S7 in *.
    pose proof (i_early_bits _ HI ltac:(cbn [snd]; lia)) as [I3 I3']. cbn [snd] in I3, I3'.
    constructor; cbn [fst snd]; rewrite ?K1, ?K2, ?K3, ?K4, ?He.
    + auto.
    + apply (i_cur _ HI).
    + apply (i_prev _ HI).
    + rewrite I3. discriminate.
    + rewrite I3'. discriminate.
    + apply (i_fin _ HI).
  - destruct (Clate Hlate) as (wp & wc & Wp & Wc & Hrun). rewrite Hrun in Hjf. injection Hjf as <-. clear Clate Cearly Hrun.
    assert (Hpp : prev_epoch_of E s1 = prev_epoch_of E s) by (unfold prev_epoch_of; rewrite Hes; reflexivity). rewrite Hpp in Wp.
    pose proof (epoch_link f s s1 t false wp Hp Hb Hlate HS Had Hbr Htz HVI Wp) as Lp.
    pose proof (epoch_link f s s1 t true wc Hp Hb Hlate HS Had Hbr Htz HVI Wc) as Lc. cbn [eb jb] in Lp, Lc.
    set (sp := supermajority wp (active_balance E s1)) in *. set (sc := supermajority wc (active_balance E s1)) in *. clearbody sp sc.
    unfold finality_after in K1, K2, K3, K4. gsh K1. gsh K2. gsh K3. gsh K4. unfold justified_after in K3. unfold finalized_after in K4. rewrite ?Hes, ?Hpp, ?J1, ?J2, ?S7, ?S8 in *.
    pose proof (i_cur _ HI) as Ic. pose proof (i_prev _ HI) as Ip. pose proof (i_bit0 _ HI) as Ib0. pose proof (i_bit1 _ HI) as Ib1. cbn [snd] in Ic, Ip, Ib0, Ib1.
    pose proof Hsh as (_ & _ & _ & _ & Hbits & _). destruct (four_bits _ Hbits) as (b0 & b1 & b2 & b3 & Hb4). rewrite Hb4 in *.
    cbn [bits_after nth] in *. clear Hbits.
    assert (Hck : forall e, exists r, checkpoint_of E s1 e = mkCheckpoint e r) by (intros e; unfold checkpoint_of; eauto).
    destruct (Hck (epoch_of E s)) as [rc Hrc]. destruct (Hck (prev_epoch_of E s)) as [rp Hrp]. rewrite Hrc in Lc, K3. rewrite Hrp in Lp, K3. clear Hck.
    assert (N1 : nth 0 (justification_bits t) false = true -> exists r, link (current_justified_checkpoint s) (mkCheckpoint (epoch_of E s) r)) by (rewrite K1; cbn [nth]; intros ->; eauto).
    assert (N2 : sp || b0 = true -> exists r, link (previous_justified_checkpoint s) (mkCheckpoint (epoch_of E s - 1) r)).
    { intros Hor. apply orb_true_iff in Hor as [Hor|Hor]; [exists rp; apply Lp; exact Hor|apply Ib0; exact Hor]. }
    assert (N3 : sp || b0 = true -> exists r, just (mkCheckpoint (epoch_of E s - 1) r)) by (intros Hor; destruct (N2 Hor) as [r Hr]; exists r; eapply just_link; [exact Ip|exact Hr]).
    constructor; cbn [fst snd]; rewrite ?He.
    + intros He2. exfalso. clear - He2 Hlate. lia.
    + rewrite K3. destruct sc; [right; eapply just_link; [exact Ic|apply Lc; reflexivity]|]. destruct sp; [right; eapply just_link; [exact Ip|apply Lp; reflexivity]|exact Ic].
    + rewrite K2. exact Ic.
    + rewrite K2. replace (epoch_of E s + 1 - 1) with (epoch_of E s) by (clear; lia). exact N1.
    + rewrite K1. cbn [nth]. replace (epoch_of E s + 1 - 2) with (epoch_of E s - 1) by (clear; lia). exact N3.
    + rewrite K4. rewrite K1 in N1. cbn [nth] in N1.
      assert (Fc : cp_epoch (current_justified_checkpoint s) = 0 \/ just (current_justified_checkpoint s) -> forall k, (just (current_justified_checkpoint s) -> final (current_justified_checkpoint s)) ->
        k = current_justified_checkpoint s -> cp_epoch k = 0 \/ final k) by (intros [X|X] k Y ->; auto).
      assert (Fp : cp_epoch (previous_justified_checkpoint s) = 0 \/ just (previous_justified_checkpoint s) -> forall k, (just (previous_justified_checkpoint s) -> final (previous_justified_checkpoint s)) ->
        k = previous_justified_checkpoint s -> cp_epoch k = 0 \/ final k) by (intros [X|X] k Y ->; auto).
      destruct (sc && (sp || b0) && (cp_epoch (current_justified_checkpoint s) + 1 =? epoch_of E s)) eqn:R1.
      { apply (Fc Ic _); [|reflexivity]. intros J. split; [exact J|left]. apply andb_true_iff in R1 as [R1 Rk]. apply andb_true_iff in R1 as [R1 _]. apply N.eqb_eq in Rk. rewrite Rk. apply N1. exact R1. }
      destruct (sc && (sp || b0) && b1 && (cp_epoch (current_justified_checkpoint s) + 2 =? epoch_of E s)) eqn:R2.
      { apply (Fc Ic _); [|reflexivity]. intros J. split; [exact J|right]. apply andb_true_iff in R2 as [R2 Rk]. apply andb_true_iff in R2 as [R2 _]. apply andb_true_iff in R2 as [R2 R2'].
        apply N.eqb_eq in Rk. rewrite Rk. split; [apply N1; exact R2|]. replace (cp_epoch (current_justified_checkpoint s) + 1) with (epoch_of E s - 1) by (clear - Rk Hlate; lia). apply N3. exact R2'. }
      destruct ((sp || b0) && b1 && (cp_epoch (previous_justified_checkpoint s) + 2 =? epoch_of E s)) eqn:R3.
      { apply (Fp Ip _); [|reflexivity]. intros J. split; [exact J|left]. apply andb_true_iff in R3 as [R3 Rk]. apply andb_true_iff in R3 as [R3 _]. apply N.eqb_eq in Rk.
        replace (cp_epoch (previous_justified_checkpoint s) + 1) with (epoch_of E s - 1) by (clear - Rk Hlate; lia). apply N2. exact R3. }
      destruct ((sp || b0) && b1 && b2 && (cp_epoch (previous_justified_checkpoint s) + 3 =? epoch_of E s)) eqn:R4.
      { apply (Fp Ip _); [|reflexivity]. intros J. split; [exact J|right]. apply andb_true_iff in R4 as [R4 Rk]. apply andb_true_iff in R4 as [R4 _]. apply andb_true_iff in R4 as [R4 R4'].
        apply N.eqb_eq in Rk. replace (cp_epoch (previous_justified_checkpoint s) + 2) with (epoch_of E s - 1) by (clear - Rk Hlate; lia).
        replace (cp_epoch (previous_justified_checkpoint s) + 1) with (epoch_of E s - 2) by (clear - Rk Hlate; lia). split; [apply N2; exact R4|apply Ib1; exact R4']. }
      apply (i_fin _ HI).
Qed.

Lemma istep_upgrade f g s t : chain_call E (f, s) (g, t) -> f <> g -> Inv (f, s) -> Inv (g, t).
Proof.
  intros Hcall Hne. destruct (upgrade_same E f g s t Hcall Hne) as [(-> & -> & Hup)|(Hf & Hg & U1 & U2 & U3 & U4 & U5 & U6 & U7 & U8)].
  - unfold upgrade_to_altair, translate_participation in Hup. apply rbind_ok_inv in Hup as (e & _ & Hup). apply rbind_ok_inv in Hup as (post & Hpost & Hup).
    apply rbind_ok_inv in Hpost as (part & Hpart & Hpost). apply Ok_inj in Hpost. subst post. apply rbind_ok_inv in Hup as (c & _ & Hup). apply Ok_inj in Hup. subst t.
    apply inv_same; reflexivity.
  - apply inv_same; cbn [snd]; try assumption. unfold epoch_of. rewrite U1. reflexivity.
Qed.
Theorem inv_path q : In q tr -> Inv q.
Proof.
  revert q. apply (walk_ind2 E Hc p0 tr Inv Hwalk inv_genesis). intros p q Hp Hq Hf HI. pose proof (vinv_path p Hp) as HVI. destruct Hf as [f s t Hu H|f b s r t H|f g s t H Hne].
  - destruct (N.eq_dec ((slot s + 1) mod SLOTS_PER_EPOCH E) 0) as [Hb|Hb]; [apply (step_epoch f s t); assumption|apply (istep_slot f s t); assumption].
  - apply (istep_block f s b r t); assumption.
  - apply (istep_upgrade f g s t); assumption.
Qed.
End Path.
