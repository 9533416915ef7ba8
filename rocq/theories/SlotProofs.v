(** * Proofs about slot processing (proof file; no model definitions) *)
From Verif Require Import Base BaseLemmas Types Ctx Env Helpers HelpersAltair HelpersElectra Block Epoch Transition Upgrade StLemmas Frame
  SpecCommon SpecShuffle SpecHelpers SpecElectra SpecAtt SpecFinality SpecSlots HelperProofs HelperProofs2 FrameProofs FinalityProofs.
From Coq Require Import Relations.
From Verif Require Import AttProofs.

Section WithEnv.
Variable E : Env.
Hypothesis Hctx : ctx_sane E.

Lemma spe_pos : SLOTS_PER_EPOCH E <> 0. Proof. unfold ctx_sane in Hctx; lia. Qed.

Lemma frame_roots f l s s' : evo E f l s s' -> l <> LSlot -> block_roots s' = block_roots s /\ state_roots s' = state_roots s.
Proof.
  intros H Hl. revert s s' H. apply evo_rel.
  - intros s; split; reflexivity.
  - intros a b c [? ?] [? ?]; split; congruence.
  - intros s s' H. inversion H; subst; gs; try (split; reflexivity); try contradiction.
    unfold register. destruct (fork_le Altair f); gs; split; reflexivity.
Qed.

(** ** one iteration *)
Lemma epoch_slot f s r s' : process_epoch E f s = (r, s') -> slot s' = slot s.
Proof.
  intros H. pose proof (evp_epoch E f s) as He. rewrite H in He. cbn [snd] in He. apply (frame_slot E f _ _ _ He). discriminate.
Qed.
Lemma epoch_roots f s r s' : process_epoch E f s = (r, s') -> block_roots s' = block_roots s /\ state_roots s' = state_roots s.
Proof.
  intros H. pose proof (evp_epoch E f s) as He. rewrite H in He. cbn [snd] in He. apply (frame_roots f _ _ _ He). discriminate.
Qed.
Lemma advance_inv f s s' : slot s + 1 < U64 -> advance_slot E f s = (Ok tt, s') ->
  exists s1 s2, process_slot E f s = (Ok tt, s1) /\ slot s1 = slot s
    /\ (if (slot s + 1) mod SLOTS_PER_EPOCH E =? 0 then process_epoch E f s1 = (Ok tt, s2) else s2 = s1) /\ slot s2 = slot s
    /\ s' = set_slot (slot s2 + 1) s2.
Proof.
  intros Hs H. unfold advance_slot in H. apply sbind_ok_inv in H as ([] & s1 & H1 & H). pose proof (proj1 (slot_frame E f _ _ _ H1)) as A1.
  rewrite (run_rd _ _ _ ((slot s + 1) mod SLOTS_PER_EPOCH E)) in H.
  2:{ unfold add. rewrite A1, uadd_ok by exact Hs. cbn [rbind]. apply umod_ok, spe_pos. }
  apply sbind_ok_inv in H as ([] & s2 & H2 & H). exists s1, s2.
  assert (A2 : slot s2 = slot s).
  { destruct (_ =? 0); cbn [swhen] in H2; [apply epoch_slot in H2; congruence|]. apply inv_ret in H2 as [_ ->]. exact A1. }
  rewrite (run_rd _ _ _ (slot s + 1)) in H by (unfold add; rewrite A2; apply uadd_ok; exact Hs). apply inv_md in H.
  split; [exact H1|]. split; [exact A1|]. split; [destruct (_ =? 0); cbn [swhen] in H2; [exact H2|apply inv_ret in H2; tauto]|].
  split; [exact A2|]. rewrite A2. exact H.
Qed.
Lemma advance_slot_succ f s s' : slot s + 1 < U64 -> advance_slot E f s = (Ok tt, s') -> slot s' = slot s + 1.
Proof. intros Hs H. destruct (advance_inv f s s' Hs H) as (s1 & s2 & _ & _ & _ & A & ->). gs. lia. Qed.

(** ** the loop *)
Lemma loop_done f n target s : target <= slot s -> slots_loop E f n target s = (Ok tt, s).
Proof.
  intros H. destruct n; cbn [slots_loop]; rewrite (run_rd _ _ s (slot s)) by reflexivity; destruct (N.ltb_spec (slot s) target); try lia; reflexivity.
Qed.
Lemma loop_step f n target s : slot s < target -> slots_loop E f (S n) target s = sbind (advance_slot E f) (fun _ => slots_loop E f n target) s.
Proof.
  intros H. cbn [slots_loop]. rewrite (run_rd _ _ s (slot s)) by reflexivity. destruct (N.ltb_spec (slot s) target); [reflexivity|lia].
Qed.
Lemma loop_ok f target : target < 2 ^ 64 -> forall n s s', slot s + N.of_nat n = target -> slots_loop E f n target s = (Ok tt, s') -> slot s' = target.
Proof.
  intros Ht. induction n as [|n IH]; intros s s' Hn H.
  - rewrite loop_done in H by lia. injection H as <-. lia.
  - rewrite loop_step in H by lia. apply sbind_ok_inv in H as ([] & s1 & H1 & H). apply advance_slot_succ in H1; [|pows; lia].
    eapply IH; [|exact H]. lia.
Qed.
Lemma process_slots_loop f target s : slot s < target -> process_slots E f target s = slots_loop E f (N.to_nat (target - slot s)) target s.
Proof.
  intros H. unfold process_slots. rewrite (run_rd _ _ s (slot s)) by reflexivity. destruct (N.leb_spec target (slot s)); [lia|reflexivity].
Qed.
Lemma process_slots_ok f target s s' : target < 2 ^ 64 -> process_slots E f target s = (Ok tt, s') -> slot s' = target /\ slot s < target.
Proof.
  intros Ht H. destruct (N.le_gt_cases target (slot s)) as [Hle|Hlt].
  - unfold process_slots in H. rewrite (run_rd _ _ s (slot s)) in H by reflexivity. destruct (N.leb_spec target (slot s)); [discriminate|lia].
  - rewrite process_slots_loop in H by exact Hlt. split; [|exact Hlt]. eapply loop_ok; [exact Ht| |exact H]. lia.
Qed.
(** splitting the loop at an intermediate slot *)
Lemma loop_split f a b : a < b -> b < 2 ^ 64 -> forall n m s, slot s + N.of_nat n = a -> N.of_nat m = b - a ->
  slots_loop E f (n + m) b s = sbind (slots_loop E f n a) (fun _ => slots_loop E f m b) s.
Proof.
  intros Hab Hb. induction n as [|n IH]; intros m s Hn Hm.
  - cbn [Nat.add]. symmetry. rewrite (run_bind _ _ _ _ _ (loop_done f 0 a s ltac:(lia))). reflexivity.
  - cbn [Nat.add]. rewrite loop_step by lia. unfold sbind at 2. rewrite loop_step by lia. unfold sbind.
    destruct (advance_slot E f s) as [r s1] eqn:Ha. destruct r as [[]| | |]; try reflexivity.
    apply advance_slot_succ in Ha; [|pows; lia]. rewrite (IH m s1) by lia. reflexivity.
Qed.
Lemma slots_compose f a b s : slot s < a -> a < b -> b < 2 ^ 64 ->
  process_slots E f b s = sbind (process_slots E f a) (fun _ => process_slots E f b) s.
Proof.
  intros H1 H2 Hb. rewrite process_slots_loop by lia. unfold sbind. rewrite process_slots_loop by exact H1.
  replace (N.to_nat (b - slot s)) with (N.to_nat (a - slot s) + N.to_nat (b - a))%nat by lia.
  rewrite (loop_split f a b H2 Hb) by lia. unfold sbind.
  destruct (slots_loop E f (N.to_nat (a - slot s)) a s) as [r s1] eqn:Ha. destruct r as [[]| | |]; try reflexivity.
  apply loop_ok in Ha; [|pows; lia|lia]. rewrite process_slots_loop by lia. rewrite Ha. reflexivity.
Qed.

(** ** events *)
Lemma run_app f s tr s1 tr' s' : slot_run E f s tr s1 -> slot_run E f s1 tr' s' -> slot_run E f s (tr ++ tr') s'.
Proof.
  induction 1; intros H'; cbn [app].
  - exact H'.
  - eapply run_slot; eauto.
  - eapply run_epoch; eauto.
  - apply run_tick; auto.
Qed.
Lemma advance_run f s s' : slot s + 1 < U64 -> advance_slot E f s = (Ok tt, s') ->
  slot_run E f s ([EvSlot (slot s)] ++ (if (slot s + 1) mod SLOTS_PER_EPOCH E =? 0 then [EvEpoch (slot s / SLOTS_PER_EPOCH E)] else []) ++ [EvTick (slot s + 1)]) s'.
Proof.
  intros Hs H. destruct (advance_inv f s s' Hs H) as (s1 & s2 & H1 & A1 & H2 & A2 & ->). cbn [app]. eapply run_slot; [exact H1|].
  assert (Ht : slot_run E f s2 [EvTick (slot s + 1)] (set_slot (slot s2 + 1) s2)) by (rewrite <- A2; apply run_tick, run_done).
  destruct (_ =? 0); cbn [app].
  - replace (slot s / SLOTS_PER_EPOCH E) with (epoch_of E s1) by (unfold epoch_of; rewrite A1; reflexivity). eapply run_epoch; [exact H2|exact Ht].
  - subst s2. exact Ht.
Qed.
Lemma loop_run f target : target < 2 ^ 64 -> forall n s s', slot s + N.of_nat n = target -> slots_loop E f n target s = (Ok tt, s') ->
  slot_run E f s (expected_events E (slot s) target) s'.
Proof.
  intros Ht. induction n as [|n IH]; intros s s' Hn H; unfold expected_events.
  - rewrite loop_done in H by lia. injection H as <-. replace (N.to_nat (target - slot s)) with 0%nat by lia. apply run_done.
  - rewrite loop_step in H by lia. apply sbind_ok_inv in H as ([] & s1 & H1 & H). pose proof (advance_slot_succ f s s1 ltac:(pows; lia) H1) as A1.
    apply advance_run in H1; [|pows; lia]. apply IH in H; [|lia]. unfold expected_events in H. rewrite A1 in H.
    replace (N.to_nat (target - slot s)) with (S n) by lia. cbn [seqN flat_map]. replace (N.to_nat (target - (slot s + 1))) with n in H by lia.
    eapply run_app; [exact H1|exact H].
Qed.

(** ** recorded roots *)
Lemma process_slot_roots f s s1 sr br : state_shape E s -> process_slot E f s = (Ok tt, s1) -> roots_of_slot E f s sr br ->
  nthN (block_roots s1) (slot s mod SLOTS_PER_HISTORICAL_ROOT E) = Some br /\ nthN (state_roots s1) (slot s mod SLOTS_PER_HISTORICAL_ROOT E) = Some sr
  /\ latest_block_header s1 = completed_header (latest_block_header s) sr
  /\ (forall i, i <> slot s mod SLOTS_PER_HISTORICAL_ROOT E -> nthN (block_roots s1) i = nthN (block_roots s) i /\ nthN (state_roots s1) i = nthN (state_roots s) i).
Proof.
  intros Hsh H [R1 R2]. assert (Hp : SLOTS_PER_HISTORICAL_ROOT E <> 0) by (unfold ctx_sane in Hctx; lia).
  assert (Hi : slot s mod SLOTS_PER_HISTORICAL_ROOT E < SLOTS_PER_HISTORICAL_ROOT E) by (apply N.mod_lt; exact Hp).
  destruct Hsh as (L1 & L2 & _). unfold process_slot in H. set (i := slot s mod SLOTS_PER_HISTORICAL_ROOT E) in *.
  destruct (idx_lt (state_roots s) i ltac:(lia)) as [x Hx]. destruct (idx_lt (block_roots s) i ltac:(lia)) as [y Hy].
  rewrite (run_rd _ _ _ (sr, i)) in H.
  2:{ unfold htr_r. rewrite R1. cbn [rbind]. rewrite umod_ok by exact Hp. cbn [rbind]. fold i. rewrite Hx. reflexivity. }
  cbn [fst snd] in H. rewrite !run_md in H. gsh H.
  set (s2 := set_state_roots (updN (state_roots s) i sr) s) in *.
  match type of H with sbind _ _ ?st = _ => set (s3 := st) in * end.
  assert (Hh : latest_block_header s3 = completed_header (latest_block_header s) sr).
  { unfold s3, completed_header, s2. gs. destruct (bytes_eqb (bh_state_root (latest_block_header s)) zero32); gs; reflexivity. }
  assert (Hs3 : slot s3 = slot s /\ block_roots s3 = block_roots s /\ state_roots s3 = updN (state_roots s) i sr).
  { unfold s3, s2. gs. destruct (bytes_eqb (bh_state_root (latest_block_header s)) zero32); gs; auto. }
  destruct Hs3 as (S1 & S2 & S3). clearbody s3.
  rewrite (run_rd _ _ _ (br, i)) in H.
  2:{ unfold htr_r. rewrite Hh, R2. cbn [rbind]. rewrite S1, umod_ok by exact Hp. cbn [rbind]. fold i. rewrite S2, Hy. reflexivity. }
  cbn [fst snd] in H. apply inv_md in H. subst s1. gs. rewrite S2, S3, Hh.
  split; [apply nthN_updN_eq; lia|]. split; [apply nthN_updN_eq; lia|]. split; [reflexivity|].
  intros j Hj. rewrite !nthN_updN_ne by congruence. auto.
Qed.
(** roots written elsewhere, whatever they are *)
Lemma process_slot_others f s r s1 : process_slot E f s = (r, s1) ->
  forall i, i <> slot s mod SLOTS_PER_HISTORICAL_ROOT E -> nthN (block_roots s1) i = nthN (block_roots s) i /\ nthN (state_roots s1) i = nthN (state_roots s) i.
Proof.
  intros H i Hi. assert (Hp : SLOTS_PER_HISTORICAL_ROOT E <> 0) by (unfold ctx_sane in Hctx; lia). unfold process_slot in H. unfold sbind at 1, rd at 1 in H.
  destruct (htr_r E (OState f s)) as [sr| | |]; cbn [rbind] in H; try (injection H as <- <-; auto; fail).
  rewrite umod_ok in H by exact Hp. cbn [rbind] in H.
  destruct (idx (state_roots s) _); cbn [rbind] in H; try (injection H as <- <-; auto; fail).
  cbn [fst snd] in H. rewrite !run_md in H.
  match type of H with sbind _ _ ?st = _ => set (s3 := st) in * end.
  assert (Hs3 : slot s3 = slot s /\ block_roots s3 = block_roots s /\ state_roots s3 = updN (state_roots s) (slot s mod SLOTS_PER_HISTORICAL_ROOT E) sr).
  { unfold s3. gs. destruct (bytes_eqb _ zero32); gs; auto. }
  destruct Hs3 as (S1 & S2 & S3). clearbody s3. unfold sbind at 1, rd at 1 in H.
  assert (Hd : nthN (block_roots s3) i = nthN (block_roots s) i /\ nthN (state_roots s3) i = nthN (state_roots s) i).
  { rewrite S2, S3, nthN_updN_ne by congruence. auto. }
  destruct (htr_r E (OHeader (latest_block_header s3))) as [br| | |]; cbn [rbind] in H; try (injection H as <- <-; exact Hd).
  rewrite umod_ok in H by exact Hp. cbn [rbind] in H. rewrite S1 in H.
  destruct (idx (block_roots s3) _); cbn [rbind] in H; try (injection H as <- <-; exact Hd).
  unfold md in H. cbn [fst snd] in H. injection H as <- <-. gs. rewrite nthN_updN_ne by congruence. exact Hd.
Qed.

(** what was recorded at index [k mod N] survives while the slot stays within [k + N] *)
Definition kept (k : N) (s s' : BeaconState) : Prop :=
  k < slot s -> slot s <= slot s' /\ (slot s' <= k + SLOTS_PER_HISTORICAL_ROOT E ->
    nthN (block_roots s') (k mod SLOTS_PER_HISTORICAL_ROOT E) = nthN (block_roots s) (k mod SLOTS_PER_HISTORICAL_ROOT E)
    /\ nthN (state_roots s') (k mod SLOTS_PER_HISTORICAL_ROOT E) = nthN (state_roots s) (k mod SLOTS_PER_HISTORICAL_ROOT E)).
Lemma kept_refl k s : kept k s s. Proof. intros _. split; [lia|auto]. Qed.
Lemma kept_trans k a b c : kept k a b -> kept k b c -> kept k a c.
Proof.
  intros H1 H2 Hk. destruct (H1 Hk) as [A1 A2]. destruct (H2 ltac:(lia)) as [B1 B2]. split; [lia|]. intros Hc.
  destruct (A2 ltac:(lia)) as [A3 A4]. destruct (B2 Hc) as [B3 B4]. split; congruence.
Qed.
Lemma kept_same k s s' : slot s' = slot s -> block_roots s' = block_roots s -> state_roots s' = state_roots s -> kept k s s'.
Proof. intros H1 H2 H3 _. rewrite H1, H2, H3. split; [lia|auto]. Qed.
Lemma mod_distinct a b n : n <> 0 -> a < b -> b < a + n -> b mod n <> a mod n.
Proof.
  intros Hn H1 H2 Hm. pose proof (N.div_mod a n Hn) as D1. pose proof (N.div_mod b n Hn) as D2. rewrite Hm in D2.
  set (q := a / n) in *. set (q' := b / n) in *. set (r := a mod n) in *. clearbody q q' r. clear Hm.
  destruct (N.le_gt_cases q' q) as [Hq|Hq].
  - pose proof (N.mul_le_mono_l _ _ n Hq). lia.
  - assert (Hq2 : q + 1 <= q') by lia. pose proof (N.mul_le_mono_l _ _ n Hq2). rewrite N.mul_add_distr_l in H. lia.
Qed.
Lemma kept_advance k f s s' : slot s + 1 < U64 -> advance_slot E f s = (Ok tt, s') -> kept k s s'.
Proof.
  intros Hs H Hk. destruct (advance_inv f s s' Hs H) as (s1 & s2 & H1 & A1 & H2 & A2 & ->). gs. split; [lia|]. intros Hw.
  assert (Hp : SLOTS_PER_HISTORICAL_ROOT E <> 0) by (unfold ctx_sane in Hctx; lia).
  destruct (process_slot_others f s _ s1 H1 (k mod SLOTS_PER_HISTORICAL_ROOT E)) as [B1 B2].
  { intros Hc. apply (mod_distinct k (slot s) (SLOTS_PER_HISTORICAL_ROOT E) Hp Hk); [lia|]. congruence. }
  assert (block_roots s2 = block_roots s1 /\ state_roots s2 = state_roots s1) as [-> ->].
  { destruct (_ =? 0); [eapply epoch_roots; eauto|subst; auto]. }
  auto.
Qed.
Lemma kept_loop k f target : target < 2 ^ 64 -> forall n s s', slots_loop E f n target s = (Ok tt, s') -> kept k s s'.
Proof.
  intros Ht. induction n as [|n IH]; intros s s' H; destruct (N.lt_ge_cases (slot s) target) as [Hlt|Hge].
  - cbn [slots_loop] in H. rewrite (run_rd _ _ s (slot s)) in H by reflexivity. destruct (N.ltb_spec (slot s) target); [discriminate|lia].
  - rewrite loop_done in H by exact Hge. injection H as <-. apply kept_refl.
  - rewrite loop_step in H by exact Hlt. apply sbind_ok_inv in H as ([] & s1 & H1 & H). eapply kept_trans; [eapply kept_advance; [|exact H1]; pows; lia|].
    eapply IH; exact H.
  - rewrite loop_done in H by exact Hge. injection H as <-. apply kept_refl.
Qed.
Lemma kept_slots k f target s s' : target < 2 ^ 64 -> process_slots E f target s = (Ok tt, s') -> kept k s s'.
Proof.
  intros Ht H. pose proof (proj2 (process_slots_ok f target s s' Ht H)) as Hlt. rewrite process_slots_loop in H by exact Hlt. eapply kept_loop; eauto.
Qed.
Lemma kept_block k f b s r s' : process_block E f b s = (r, s') -> kept k s s'.
Proof.
  intros H. pose proof (evp_block E f b s) as He. rewrite H in He. cbn [snd] in He.
  destruct (frame_roots f _ _ _ He ltac:(discriminate)) as [F1 F2]. apply kept_same; [|assumption..]. apply (frame_slot E f _ _ _ He). discriminate.
Qed.
Lemma kept_transition k f v sb s s' : bk_slot (sb_message sb) < 2 ^ 64 -> state_transition E f v sb s = (Ok tt, s') -> kept k s s'.
Proof.
  intros Ht H. unfold state_transition in H. apply sbind_ok_inv in H as ([] & s1 & H1 & H). apply (kept_slots k) in H1; [|exact Ht].
  eapply kept_trans; [exact H1|]. unfold state_transition_block_in_slot in H.
  apply sbind_ok_inv in H as ([] & s2 & H2 & H). assert (s2 = s1) by (destruct v; cbn [swhen] in H2; [apply inv_rd in H2|apply inv_ret in H2]; tauto). subst s2.
  apply sbind_ok_inv in H as ([] & s3 & H3 & H). apply (kept_block k) in H3.
  assert (s' = s3) by (destruct v; cbn [swhen] in H; [apply inv_rd in H|apply inv_ret in H]; tauto). subst s'. exact H3.
Qed.
Definition same_roots (s s' : BeaconState) : Prop := slot s' = slot s /\ block_roots s' = block_roots s /\ state_roots s' = state_roots s.
Lemma sr_refl s : same_roots s s. Proof. repeat split. Qed.
Lemma sr_trans a b c : same_roots a b -> same_roots b c -> same_roots a c.
Proof. intros (A1&A2&A3) (B1&B2&B3). repeat split; congruence. Qed.
Lemma sr_mod i g : pres same_roots (mod_validator i g).
Proof. intros s. unfold mod_validator, sbind, rd, md. destruct (idx _ _); cbn [snd]; try apply sr_refl. repeat split. Qed.
Lemma sr_finish : pres same_roots (electra_finish E).
Proof.
  unfold electra_finish, queue_entire_balance_and_reset_validator, queue_excess_active_balance.
  repeat first [apply pres_bind; [exact sr_trans| |intros] | apply pres_rd; exact sr_refl | apply pres_lift; exact sr_refl
    | apply pres_for; [exact sr_refl|exact sr_trans|intros] | apply sr_mod | apply pres_if | apply pres_ret; exact sr_refl
    | apply pres_md; intros; repeat split].
Qed.
Lemma chain_kept k p p' : chain E p p' -> kept k (snd p) (snd p').
Proof.
  induction 1 as [a b H|a|a b c H1 IH1 H2 IH2]; [|apply kept_refl|eapply kept_trans; eauto].
  inversion H; subst; cbn [snd].
  - eapply kept_transition; eauto.
  - eapply kept_slots; eauto.
  - eapply kept_block; eauto.
  - unfold upgrade_to_altair, translate_participation in H0. apply rbind_ok_inv in H0 as (e & _ & H0). apply rbind_ok_inv in H0 as (post & Hp & H0).
    apply rbind_ok_inv in Hp as (part & _ & Hp). apply Ok_inj in Hp. subst post. apply rbind_ok_inv in H0 as (c & _ & H0). apply Ok_inj in H0. subst s'.
    apply kept_same; reflexivity.
  - unfold upgrade_to_bellatrix in H0. apply rbind_ok_inv in H0 as (e & _ & H0). apply Ok_inj in H0. subst. apply kept_same; reflexivity.
  - unfold upgrade_to_capella in H0. apply rbind_ok_inv in H0 as (e & _ & H0). cbv zeta in H0. apply Ok_inj in H0. subst. apply kept_same; reflexivity.
  - unfold upgrade_to_deneb in H0. apply rbind_ok_inv in H0 as (e & _ & H0). cbv zeta in H0. apply Ok_inj in H0. subst. apply kept_same; reflexivity.
  - unfold upgrade_to_electra in H0. apply rbind_ok_inv in H0 as (e & _ & H0). apply rbind_ok_inv in H0 as (ee & _ & H0). apply rbind_ok_inv in H0 as (ec & _ & H0).
    pose proof (sr_finish (electra_base E e ee ec s)) as Hp. destruct (electra_finish E _) as [r post]. apply rbind_ok_inv in H0 as (u & _ & H0). apply Ok_inj in H0. subst s'.
    cbn [snd] in Hp. destruct Hp as (P1 & P2 & P3). apply kept_same; [rewrite P1|rewrite P2|rewrite P3]; reflexivity.
Qed.
(** ** the converse for events *)
Lemma run_advance f s tr s' : slot s + 1 < U64 ->
  slot_run E f s ([EvSlot (slot s)] ++ (if (slot s + 1) mod SLOTS_PER_EPOCH E =? 0 then [EvEpoch (slot s / SLOTS_PER_EPOCH E)] else []) ++ [EvTick (slot s + 1)] ++ tr) s' ->
  exists s1, advance_slot E f s = (Ok tt, s1) /\ slot s1 = slot s + 1 /\ slot_run E f s1 tr s'.
Proof.
  intros Hs H. cbn [app] in H. inversion H as [|? s1 ? ? H1 H2| |]; subst. clear H. pose proof (proj1 (slot_frame E f _ _ _ H1)) as A1.
  assert (exists s2, (if (slot s + 1) mod SLOTS_PER_EPOCH E =? 0 then process_epoch E f s1 = (Ok tt, s2) else s2 = s1) /\ slot s2 = slot s
    /\ slot_run E f s2 (EvTick (slot s + 1) :: tr) s') as (s2 & H3 & A2 & H4).
  { destruct (_ =? 0); cbn [app] in H2.
    - inversion H2 as [| |? s2 ? ? H3 H4 Heq|]; subst. exists s2. split; [exact H3|]. split; [rewrite (epoch_slot _ _ _ _ H3); exact A1|exact H4].
    - exists s1. auto. }
  inversion H4 as [| | |? ? ? H5 Heq]; subst. exists (set_slot (slot s2 + 1) s2). split; [|split; [gs; lia|exact H5]].
  unfold advance_slot. rewrite (run_bind _ _ _ _ _ H1).
  rewrite (run_rd _ _ _ ((slot s + 1) mod SLOTS_PER_EPOCH E)).
  2:{ unfold add. rewrite A1, uadd_ok by exact Hs. cbn [rbind]. apply umod_ok, spe_pos. }
  assert (Hw : swhen ((slot s + 1) mod SLOTS_PER_EPOCH E =? 0) (process_epoch E f) s1 = (Ok tt, s2)).
  { destruct (_ =? 0); cbn [swhen]; [exact H3|subst; reflexivity]. }
  rewrite (run_bind _ _ _ _ _ Hw). rewrite (run_rd _ _ _ (slot s2 + 1)) by (unfold add; rewrite A2; apply uadd_ok; exact Hs). reflexivity.
Qed.
Lemma run_loop f target s' : target < 2 ^ 64 -> forall n s, slot s + N.of_nat n = target ->
  slot_run E f s (expected_events E (slot s) target) s' -> slots_loop E f n target s = (Ok tt, s').
Proof.
  intros Ht. induction n as [|n IH]; intros s Hn H; unfold expected_events in H.
  - replace (N.to_nat (target - slot s)) with 0%nat in H by lia. cbn in H. inversion H; subst. apply loop_done. lia.
  - replace (N.to_nat (target - slot s)) with (S n) in H by lia. cbn [seqN flat_map] in H. rewrite <- !app_assoc in H.
    apply run_advance in H; [|pows; lia]. destruct H as (s1 & H1 & A1 & H). rewrite loop_step by lia. rewrite (run_bind _ _ _ _ _ H1).
    apply IH; [lia|]. unfold expected_events. rewrite A1. replace (N.to_nat (target - (slot s + 1))) with n by lia. exact H.
Qed.
Lemma run_slots f target s s' : slot s < target -> target < 2 ^ 64 -> slot_run E f s (expected_events E (slot s) target) s' ->
  process_slots E f target s = (Ok tt, s').
Proof. intros Hlt Ht H. rewrite process_slots_loop by exact Hlt. apply run_loop; [exact Ht|lia|exact H]. Qed.

(** ** roots *)
Lemma root_outside s sl : slot_small s -> 0 < slot s -> ~ (sl < slot s /\ slot s <= sl + SLOTS_PER_HISTORICAL_ROOT E) -> get_block_root_at_slot E s sl = Err ESlotOutOfRange.
Proof.
  intros Hs Hp H. unfold get_block_root_at_slot, slot_small in *. assert (SLOTS_PER_HISTORICAL_ROOT E <= 2 ^ 40) by (clear - Hctx; ctxs Hctx; lia).
  destruct (N.leb_spec (slot s) sl) as [Hle|Hgt].
  - cbn [rbind]. unfold sub, add. rewrite usub_ok by lia. cbn [rbind]. rewrite uadd_ok by (pows; lia). reflexivity.
  - unfold sub, add. rewrite (uadd_ok _ sl) by (pows; lia). cbn [rbind]. destruct (N.ltb_spec (sl + SLOTS_PER_HISTORICAL_ROOT E) (slot s)); [|lia].
    rewrite usub_ok by lia. cbn [rbind]. rewrite uadd_ok by (pows; lia). reflexivity.
Qed.
Lemma advance_one f s s' : slot_small s -> process_slots E f (slot s + 1) s = (Ok tt, s') -> advance_slot E f s = (Ok tt, s').
Proof.
  intros Hs H. rewrite process_slots_loop in H by lia. replace (N.to_nat (slot s + 1 - slot s)) with 1%nat in H by lia.
  rewrite loop_step in H by lia. apply sbind_ok_inv in H as ([] & s1 & H1 & H).
  rewrite loop_done in H; [injection H as <-; exact H1|]. rewrite (advance_slot_succ f s s1); [lia| |exact H1]. unfold slot_small in Hs. pows; lia.
Qed.
Lemma recorded_later f g s1 s2 s3 sr br : state_shape E s1 -> slot_small s1 ->
  roots_of_slot E f s1 sr br -> process_slots E f (slot s1 + 1) s1 = (Ok tt, s2) -> chain E (f, s2) (g, s3) ->
  slot s3 <= slot s1 + SLOTS_PER_HISTORICAL_ROOT E ->
  slot s1 < slot s3 /\ get_block_root_at_slot E s3 (slot s1) = Ok br
  /\ nthN (state_roots s3) (slot s1 mod SLOTS_PER_HISTORICAL_ROOT E) = Some sr.
Proof.
  intros Hsh Hs Hr H Hch Hw. apply advance_one in H; [|exact Hs]. unfold slot_small in Hs.
  destruct (advance_inv f s1 s2 ltac:(pows; lia) H) as (t1 & t2 & H1 & A1 & H2 & A2 & ->).
  destruct (process_slot_roots f s1 t1 sr br Hsh H1 Hr) as (B1 & B2 & _ & _).
  assert (block_roots t2 = block_roots t1 /\ state_roots t2 = state_roots t1) as [C1 C2] by (destruct (_ =? 0); [eapply epoch_roots; eauto|subst; auto]).
  pose proof (chain_kept (slot s1) _ _ Hch) as Hk. cbn [snd] in Hk. unfold kept in Hk. gsh Hk. destruct (Hk ltac:(lia)) as [D1 D2]. destruct (D2 Hw) as [D3 D4].
  rewrite C1, B1 in D3. rewrite C2, B2 in D4. split; [lia|]. split; [|exact D4].
  assert (SLOTS_PER_HISTORICAL_ROOT E <= 2 ^ 40 /\ SLOTS_PER_HISTORICAL_ROOT E <> 0) as [P1 P2] by (clear - Hctx; ctxs Hctx; lia).
  unfold get_block_root_at_slot. destruct (N.leb_spec (slot s3) (slot s1)); [lia|]. unfold add. rewrite uadd_ok by (pows; lia). cbn [rbind].
  destruct (N.ltb_spec (slot s1 + SLOTS_PER_HISTORICAL_ROOT E) (slot s3)); [lia|]. rewrite umod_ok by exact P2. cbn [rbind]. apply idx_ok. exact D3.
Qed.
Lemma roots_exist f s s' target : process_slots E f target s = (Ok tt, s') -> exists sr br, roots_of_slot E f s sr br.
Proof.
  intros H. unfold process_slots in H. rewrite (run_rd _ _ s (slot s)) in H by reflexivity. destruct (N.leb_spec target (slot s)) as [|Hlt]; [discriminate|].
  replace (N.to_nat (target - slot s)) with (S (N.to_nat (target - slot s - 1))) in H by lia.
  rewrite loop_step in H by exact Hlt. apply sbind_ok_inv in H as ([] & s1 & H1 & _). unfold advance_slot in H1. apply sbind_ok_inv in H1 as ([] & s2 & H & _).
  unfold process_slot in H. apply sbind_ok_inv in H as (p & t & H1 & H). apply inv_rd in H1 as [H1 ->].
  apply rbind_ok_inv in H1 as (sr & R1 & H1). exists sr. apply rbind_ok_inv in H1 as (i & _ & H1). apply rbind_ok_inv in H1 as (x & _ & H1). apply Ok_inj in H1. subst p.
  cbn [fst snd] in H. rewrite !run_md in H. apply sbind_ok_inv in H as (q & t & H2 & _). apply inv_rd in H2 as [H2 _].
  apply rbind_ok_inv in H2 as (br & R2 & _). exists br. unfold htr_r in R1, R2. split.
  - destruct (htr E (OState f s)); [injection R1 as ->; reflexivity|discriminate].
  - match type of R2 with context [OHeader ?h] => assert (Hh : h = completed_header (latest_block_header s) sr) end.
    { unfold completed_header. gs. destruct (bytes_eqb _ zero32); gs; reflexivity. }
    rewrite Hh in R2. destruct (htr E (OHeader _)); [injection R2 as ->; reflexivity|discriminate].
Qed.
End WithEnv.
