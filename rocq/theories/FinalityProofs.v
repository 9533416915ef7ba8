(** * Proofs about justification and finalization (proof file; no model definitions) *)
From Verif Require Import Base BaseLemmas Types Ctx Env Helpers HelpersAltair HelpersElectra Block Epoch Transition Upgrade StLemmas Frame
  SpecCommon SpecShuffle SpecHelpers SpecElectra SpecOps SpecBlock SpecAtt SpecFinality
  ShuffleProofs HelperProofs HelperProofs2 OpsProofs SlashProofs BlockProofs AttProofs FrameProofs.
From Coq Require Import Sorted Permutation Relations.

Lemma NoDup_sum_le (g : N -> N) l : forall k, NoDup l -> (forall x, In x l -> In x k) -> sumN (map g l) <= sumN (map g k).
Proof.
  induction l as [|x l IH]; intros k Hnd Hin; [cbn; lia|]. inversion Hnd; subst.
  destruct (in_split x k (Hin x (or_introl eq_refl))) as (k1 & k2 & ->).
  assert (H' : forall y, In y l -> In y (k1 ++ k2)).
  { intros y Hy. assert (Hk := Hin y (or_intror Hy)). apply in_app_or in Hk. apply in_or_app. destruct Hk as [Hk|[Hk|Hk]]; auto. subst; contradiction. }
  specialize (IH (k1 ++ k2) H2 H'). rewrite map_app, sumN_app in IH |- *. cbn [map]. rewrite !sumN_cons. lia.
Qed.
Lemma sum_range_validators s : sumN (map (effective_balance_of s) (rangeN (lenN (validators s)))) = sumN (map v_effective_balance (validators s)).
Proof.
  f_equal. apply nthN_ext. intros i. rewrite !nthN_map. destruct (N.lt_ge_cases i (lenN (validators s))) as [Hi|Hi].
  - rewrite nthN_rangeN by exact Hi. destruct (nthN_lt _ _ Hi) as [v Hv]. rewrite Hv. cbn [option_map].
    rewrite (effective_balance_of_some _ _ _ Hv). reflexivity.
  - rewrite (proj2 (nthN_none (validators s) i)) by exact Hi. rewrite (proj2 (nthN_none _ i)) by (rewrite lenN_rangeN; exact Hi). reflexivity.
Qed.
Lemma effective_sum_le s l : NoDup l -> (forall i, In i l -> i < lenN (validators s)) -> effective_sum s l <= sumN (map v_effective_balance (validators s)).
Proof.
  intros Hnd Hin. rewrite <- sum_range_validators. unfold effective_sum. apply NoDup_sum_le; [exact Hnd|].
  intros x Hx. apply In_rangeN. auto.
Qed.

Lemma In_rfilter {A} (p : A -> res bool) l r : rfilter p l = Ok r -> forall x, In x r <-> In x l /\ p x = Ok true.
Proof.
  revert r; induction l as [|a l IH]; intros r H; cbn [rfilter] in H.
  - apply Ok_inj in H. subst r. intros x. cbn. tauto.
  - apply rbind_ok_inv in H as (b & Hb & H). apply rbind_ok_inv in H as (t & Ht & H). apply Ok_inj in H. specialize (IH t Ht).
    subst r. intros x. destruct b; cbn [In]; rewrite IH; intuition (subst; try congruence).
Qed.
Lemma rfilter_sub {A} (p : A -> res bool) l r : rfilter p l = Ok r -> NoDup l -> NoDup r.
Proof.
  revert r; induction l as [|a l IH]; intros r H Hnd; cbn [rfilter] in H.
  - apply Ok_inj in H. subst r. constructor.
  - apply rbind_ok_inv in H as (b & Hb & H). apply rbind_ok_inv in H as (t & Ht & H). apply Ok_inj in H. inversion Hnd; subst.
    destruct b; [|auto]. constructor; [|auto]. intros Hc. apply (In_rfilter _ _ _ Ht) in Hc as [Hc _]. contradiction.
Qed.
Lemma rfilter_total {A} (p : A -> res bool) l : (forall x, In x l -> exists b, p x = Ok b) -> exists r, rfilter p l = Ok r.
Proof.
  induction l as [|a l IH]; intros H; cbn [rfilter]; [eauto|]. destruct (H a (or_introl eq_refl)) as [b ->]. cbn [rbind].
  destruct IH as [t ->]; [intros x Hx; apply H; right; exact Hx|]. cbn [rbind]. eauto.
Qed.
Lemma rmap_total {A B} (g : A -> res B) l : (forall x, In x l -> exists b, g x = Ok b) -> exists r, rmap g l = Ok r.
Proof.
  induction l as [|a l IH]; intros H; cbn [rmap]; [eauto|]. destruct (H a (or_introl eq_refl)) as [b ->]. cbn [rbind].
  destruct IH as [t ->]; [intros x Hx; apply H; right; exact Hx|]. cbn [rbind]. eauto.
Qed.
Lemma In_concat_rmap {A} (g : A -> res (list N)) l ls i : rmap g l = Ok ls -> In i (concat ls) <-> exists a r, In a l /\ g a = Ok r /\ In i r.
Proof.
  revert ls; induction l as [|a l IH]; intros ls H; cbn [rmap] in H.
  - apply Ok_inj in H. subst ls. cbn. split; [intros []|intros (a & r & [] & _)].
  - apply rbind_ok_inv in H as (b & Hb & H). apply rbind_ok_inv in H as (t & Ht & H). apply Ok_inj in H. subst ls. cbn [concat].
    rewrite in_app_iff, (IH t Ht). split.
    + intros [H|(a' & r & H1 & H2 & H3)]; [exists a, b|exists a', r]; cbn; auto.
    + intros (a' & r & [<-|H1] & H2 & H3); [left; congruence|right; eauto].
Qed.

Section WithEnv.
Variable E : Env.
Hypothesis Hctx : ctx_sane E.
Hypothesis Hwf : hash_wf (hash E).
Hypothesis Hatt : ctx_sane_att E.

(** ** the update *)
Lemma finalize_if_run lo n cp d cur s : cp_epoch cp + d < U64 ->
  finalize_if E lo n cp d cur s =
  (Ok tt, if forallb (fun b => b) (firstn n (skipn lo (justification_bits s))) && (cp_epoch cp + d =? cur) then set_finalized_checkpoint cp s else s).
Proof.
  intros H. unfold finalize_if. destruct (forallb _ _) eqn:Hf.
  - rewrite (run_rd _ _ _ (cp_epoch cp + d =? cur)).
    + destruct (cp_epoch cp + d =? cur); reflexivity.
    + rewrite Hf. unfold add. rewrite uadd_ok by exact H. reflexivity.
  - rewrite (run_rd _ _ _ false); [reflexivity|]. rewrite Hf. reflexivity.
Qed.
Lemma block_root_epoch s e : state_shape E s -> slot_small s -> e = epoch_of E s \/ e = prev_epoch_of E s -> 0 < slot s mod SLOTS_PER_EPOCH E ->
  get_block_root E s e = Ok (cp_root (checkpoint_of E s e)) /\ recorded_root E s (e * SLOTS_PER_EPOCH E) = Some (cp_root (checkpoint_of E s e)).
Proof.
  intros Hsh Hs He Hm. unfold get_block_root, compute_start_slot_at_epoch, mul.
  assert (Hspe : 1 <= SLOTS_PER_EPOCH E <= 4096) by (clear - Hctx; ctxs Hctx; lia).
  assert (Hb : e * SLOTS_PER_EPOCH E < slot s /\ slot s <= e * SLOTS_PER_EPOCH E + SLOTS_PER_HISTORICAL_ROOT E).
  { destruct Hatt as (_ & H2 & _). pose proof (N.div_mod (slot s) (SLOTS_PER_EPOCH E) ltac:(lia)) as Hd.
    pose proof (N.mod_lt (slot s) (SLOTS_PER_EPOCH E) ltac:(lia)) as Hlt. unfold prev_epoch_of, epoch_of in He.
    set (q := slot s / SLOTS_PER_EPOCH E) in *. set (m := slot s mod SLOTS_PER_EPOCH E) in *. set (n := SLOTS_PER_EPOCH E) in *.
    clearbody q m n. destruct He as [->| ->]; split; [nia|nia|nia|]. destruct (N.eq_dec q 0) as [->|Hq]; [lia|].
    replace ((q - 1) * n) with (n * q - n) by nia. nia. }
  destruct Hb as [Hb1 Hb2]. rewrite umul_ok by (unfold slot_small in Hs; pows; lia). cbn [rbind].
  destruct (block_root_at E Hctx s (e * SLOTS_PER_EPOCH E) Hsh Hs Hb1 Hb2) as (r & Hr & Hg).
  unfold checkpoint_of. rewrite Hr. cbn [cp_root]. auto.
Qed.
Lemma block_root_same s s' e : block_roots s' = block_roots s -> slot s' = slot s -> get_block_root E s' e = get_block_root E s e.
Proof. intros H1 H2. unfold get_block_root, get_block_root_at_slot. rewrite H1, H2. reflexivity. Qed.
Lemma justify_run s e k : state_shape E s -> slot_small s -> e = epoch_of E s \/ e = prev_epoch_of E s -> 0 < slot s mod SLOTS_PER_EPOCH E ->
  forall s', block_roots s' = block_roots s -> slot s' = slot s ->
  justify E e k s' = (Ok tt, set_current_justified_checkpoint (checkpoint_of E s e) (set_justification_bits (updN (justification_bits s') k true) s')).
Proof.
  intros Hsh Hs He Hm s' H1 H2. unfold justify. destruct (block_root_epoch s e Hsh Hs He Hm) as [Hg _].
  rewrite (run_rd _ _ _ (cp_root (checkpoint_of E s e))) by (rewrite (block_root_same s s') by assumption; exact Hg). reflexivity.
Qed.

Lemma weigh_run s total pt ct : state_shape E s -> slot_small s -> 0 < slot s mod SLOTS_PER_EPOCH E -> justified_small s ->
  2 * total < 2 ^ 64 -> 3 * pt < 2 ^ 64 -> 3 * ct < 2 ^ 64 ->
  weigh_justification_and_finalization E total pt ct s = (Ok tt, finality_after E s (supermajority pt total) (supermajority ct total)).
Proof.
  intros Hsh Hs Hm [J1 J2] H1 H2 H3. unfold weigh_justification_and_finalization.
  rewrite (run_rd _ _ _ (prev_epoch_of E s)) by (apply previous_epoch_ok; exact Hctx).
  rewrite (run_rd _ _ _ (epoch_of E s)) by (apply current_epoch_ok; exact Hctx).
  rewrite (run_rd _ _ _ (previous_justified_checkpoint s)) by reflexivity.
  rewrite (run_rd _ _ _ (current_justified_checkpoint s)) by reflexivity.
  rewrite !run_md. unfold mul. rewrite (umul_ok _ pt 3), (umul_ok _ total 2), (umul_ok _ ct 3) by (pows; lia).
  repeat (rewrite (run_lift _ _ _ _ eq_refl)).
  replace (total * 2 <=? pt * 3) with (supermajority pt total) by (unfold supermajority; f_equal; lia).
  replace (total * 2 <=? ct * 3) with (supermajority ct total) by (unfold supermajority; f_equal; lia).
  set (sp := supermajority pt total). set (sc := supermajority ct total). gs.
  assert (Hbits : exists b0 b1 b2 b3, justification_bits s = [b0; b1; b2; b3]).
  { destruct Hsh as (_ & _ & _ & _ & Hl & _). destruct (justification_bits s) as [|b0 [|b1 [|b2 [|b3 [|]]]]]; unfold lenN in Hl; cbn [length] in Hl; try lia; eauto 6. }
  destruct Hbits as (b0 & b1 & b2 & b3 & Hb). rewrite Hb. cbn [firstn].
  set (s1 := set_justification_bits [false; b0; b1; b2] (set_previous_justified_checkpoint (current_justified_checkpoint s) s)).
  assert (G1 : swhen sp (justify E (prev_epoch_of E s) 1) s1 =
    (Ok tt, set_current_justified_checkpoint (if sp then checkpoint_of E s (prev_epoch_of E s) else current_justified_checkpoint s)
       (set_justification_bits [false; sp || b0; b1; b2] (set_previous_justified_checkpoint (current_justified_checkpoint s) s)))).
  { destruct sp; cbn [swhen].
    - rewrite (justify_run s) by (auto; reflexivity). unfold s1. gs. reflexivity.
    - unfold s1, sret. reflexivity. }
  rewrite (run_bind _ _ _ _ _ G1). set (s2 := set_current_justified_checkpoint _ _).
  rewrite (run_lift _ _ _ _ eq_refl). rewrite (run_lift _ _ _ _ eq_refl).
  replace (total * 2 <=? ct * 3) with sc by (unfold sc, supermajority; f_equal; lia).
  assert (G2 : swhen sc (justify E (epoch_of E s) 0) s2 =
    (Ok tt, set_current_justified_checkpoint (justified_after E s sp sc)
       (set_justification_bits [sc; sp || b0; b1; b2] (set_previous_justified_checkpoint (current_justified_checkpoint s) s)))).
  { unfold justified_after. destruct sc; cbn [swhen].
    - rewrite (justify_run s) by (auto; reflexivity). unfold s2. gs. reflexivity.
    - unfold s2, sret. reflexivity. }
  rewrite (run_bind _ _ _ _ _ G2). set (s3 := set_current_justified_checkpoint _ _).
  assert (Hb3 : justification_bits s3 = [sc; sp || b0; b1; b2]) by reflexivity.
  assert (Hfin : finality_after E s sp sc = set_finalized_checkpoint (finalized_after E s [sc; sp || b0; b1; b2]) s3).
  { unfold finality_after. rewrite Hb. reflexivity. }
  rewrite Hfin. unfold finalized_after. cbn [nth].
  assert (J3 : forall d, d <= 3 -> cp_epoch (previous_justified_checkpoint s) + d < U64) by (intros d Hd; clear - J1 Hd; pows; lia).
  assert (J4 : forall d, d <= 3 -> cp_epoch (current_justified_checkpoint s) + d < U64) by (intros d Hd; clear - J2 Hd; pows; lia).
  assert (Hid : s3 = set_finalized_checkpoint (finalized_checkpoint s) s3) by reflexivity.
  assert (G : forall lo n cp d F, cp_epoch cp + d < U64 -> finalize_if E lo n cp d (epoch_of E s) (set_finalized_checkpoint F s3) =
    (Ok tt, set_finalized_checkpoint (if forallb (fun b => b) (firstn n (skipn lo [sc; sp || b0; b1; b2])) && (cp_epoch cp + d =? epoch_of E s) then cp else F) s3)).
  { intros lo n cp d F Hd. rewrite finalize_if_run by exact Hd. gs. rewrite Hb3. destruct (_ && _); gs; reflexivity. }
  rewrite Hid at 1. clearbody s3. clear Hid Hb3.
  rewrite (run_bind _ _ _ _ _ (G 1%nat 3%nat (previous_justified_checkpoint s) 3 _ (J3 3 ltac:(lia)))).
  rewrite (run_bind _ _ _ _ _ (G 1%nat 2%nat (previous_justified_checkpoint s) 2 _ (J3 2 ltac:(lia)))).
  rewrite (run_bind _ _ _ _ _ (G 0%nat 3%nat (current_justified_checkpoint s) 2 _ (J4 2 ltac:(lia)))).
  rewrite G by (apply J4; lia).
  f_equal. f_equal. cbn [skipn firstn forallb]. rewrite !andb_true_r. generalize (sp || b0). intros b0'.
  rewrite !andb_assoc. reflexivity.
Qed.

(** ** the votes *)
Lemma voters_altair f s e : f <> Phase0 -> votes_recorded E f s -> e = epoch_of E s \/ e = prev_epoch_of E s ->
  exists l, get_unslashed_participating_indices E s TIMELY_TARGET_FLAG_INDEX e = Ok l /\ NoDup l /\ forall i, In i l <-> voted_target E f s e i.
Proof.
  intros Hf Hv He. unfold get_unslashed_participating_indices. rewrite (previous_epoch_ok E Hctx), (current_epoch_ok E Hctx). cbn [rbind].
  assert (Hc : negb (prev_epoch_of E s =? e) && negb (epoch_of E s =? e) = false).
  { destruct He as [->| ->]; rewrite N.eqb_refl; cbn [negb andb]; [apply andb_false_r|reflexivity]. }
  rewrite Hc. rewrite get_active_ok.
  set (part := if e =? epoch_of E s then current_epoch_participation s else previous_epoch_participation s).
  assert (Hlen : lenN part = lenN (validators s)).
  { unfold part. destruct f; [contradiction|..]; destruct Hv as [V1 V2]; destruct (e =? epoch_of E s); assumption. }
  destruct (rfilter_total (fun i => let! p := idx part i in let! v := idx (validators s) i in
      Ok (has_flag p TIMELY_TARGET_FLAG_INDEX && negb (v_slashed v))) (active_set s e)) as [l Hl].
  { intros i Hi. apply active_in_range in Hi. destruct (idx_lt part i) as [p Hp]; [lia|]. destruct (idx_lt (validators s) i Hi) as [v Hv'].
    rewrite Hp, Hv'. cbn [rbind]. eauto. }
  exists l. split; [exact Hl|]. split; [eapply rfilter_sub; [exact Hl|apply NoDup_indices_where]|].
  intros i. rewrite (In_rfilter _ _ _ Hl), In_active_set. unfold voted_target. fold part.
  assert (Hx : (exists v, nthN (validators s) i = Some v /\ v_slashed v = false /\ active_at e v = true
                  /\ exists p, nthN part i = Some p /\ N.testbit p 1 = true)
     <-> (exists v, nthN (validators s) i = Some v /\ active_at e v = true) /\
         (let! p := idx part i in let! v := idx (validators s) i in Ok (has_flag p TIMELY_TARGET_FLAG_INDEX && negb (v_slashed v))) = Ok true).
  { split.
    - intros (v & H1 & H2 & H3 & p & H4 & H5). split; [eauto|]. rewrite (proj2 (idx_ok part i p) H4), (proj2 (idx_ok _ i v) H1). cbn [rbind].
      rewrite has_flag_bit. change TIMELY_TARGET_FLAG_INDEX with 1. rewrite H5, H2. reflexivity.
    - intros ((v & H1 & H2) & H3). apply rbind_ok_inv in H3 as (p & Hp & H3). rewrite (proj2 (idx_ok _ i v) H1) in H3. cbn [rbind] in H3.
      apply Ok_inj, andb_true_iff in H3 as [H3 H4]. rewrite has_flag_bit in H3. apply idx_ok in Hp. exists v. split; [exact H1|].
      split; [destruct (v_slashed v); [discriminate|reflexivity]|]. split; [exact H2|]. exists p. split; [exact Hp|exact H3]. }
  rewrite <- Hx. destruct f; [contradiction|..]; reflexivity.
Qed.

Lemma attesting_of s a : state_shape E s -> pending_recorded E s a ->
  exists l, get_attesting_indices E s (pa_data a) (pa_aggregation_bits a) = Ok l
    /\ forall i, In i l <-> exists com k, is_committee E s (ad_slot (pa_data a)) (ad_index (pa_data a)) com
         /\ nthN (pa_aggregation_bits a) k = Some true /\ nthN com k = Some i.
Proof.
  intros Hsh (H1 & H2 & com & Hc & Hl).
  assert (H1' : ad_slot (pa_data a) < 2 ^ 60) by (clear - H1; pows; lia).
  pose proof (proj2 (committee_spec E Hctx Hwf s _ _ com Hsh H1' H2) Hc) as Hg.
  pose proof (get_attesting_indices_ok E s _ (pa_aggregation_bits a) _ Hg) as Hai. rewrite Hl, N.eqb_refl in Hai.
  eexists. split; [exact Hai|]. intros i. rewrite In_dedupN, In_select_bits. split.
  - intros (k & Hk1 & Hk2). eauto 6.
  - intros (com' & k & Hc' & Hk1 & Hk2). rewrite (is_committee_fun E s _ _ _ _ Hc' Hc) in Hk2. eauto.
Qed.
Lemma committee_in_range s sl c com i k : is_committee E s sl c com -> nthN com k = Some i -> i < lenN (validators s).
Proof.
  intros (seed & _ & _ & H) Hk. pose proof (nthN_some _ _ _ Hk) as Hlt. rewrite H in Hk by exact Hlt.
  apply nthN_In in Hk. eapply active_in_range; eauto.
Qed.
Lemma unslashed_attesting s l : state_shape E s -> (forall a, In a l -> pending_recorded E s a) ->
  exists r, get_unslashed_attesting_indices E s l = Ok r /\ NoDup r /\ forall i, In i r <->
    exists v, nthN (validators s) i = Some v /\ v_slashed v = false /\ exists a com k, In a l
      /\ is_committee E s (ad_slot (pa_data a)) (ad_index (pa_data a)) com /\ nthN (pa_aggregation_bits a) k = Some true /\ nthN com k = Some i.
Proof.
  intros Hsh Hp.
  assert (Hone : forall a, In a l -> exists r, unslashed_of E s a = Ok r /\ forall i, In i r <->
    exists v, nthN (validators s) i = Some v /\ v_slashed v = false /\ exists com k,
      is_committee E s (ad_slot (pa_data a)) (ad_index (pa_data a)) com /\ nthN (pa_aggregation_bits a) k = Some true /\ nthN com k = Some i).
  { intros a Ha. destruct (attesting_of s a Hsh (Hp a Ha)) as (x & Hx & Hin). unfold unslashed_of. rewrite Hx. cbn [rbind].
    destruct (rfilter_total (fun i => let! v := idx (validators s) i in Ok (negb (v_slashed v))) x) as [r Hr].
    { intros i Hi. apply Hin in Hi as (com & k & Hc & _ & Hk). destruct (idx_lt (validators s) i) as [v Hv].
      - eapply committee_in_range; eauto.
      - rewrite Hv. cbn [rbind]. eauto. }
    exists r. split; [exact Hr|]. intros i. rewrite (In_rfilter _ _ _ Hr), Hin. split.
    - intros (H & Hv). apply rbind_ok_inv in Hv as (v & Hv & Hs). apply idx_ok in Hv. apply Ok_inj in Hs. exists v. split; [exact Hv|].
      split; [destruct (v_slashed v); [discriminate|reflexivity]|exact H].
    - intros (v & Hv & Hs & H). split; [exact H|]. rewrite (proj2 (idx_ok _ i v) Hv). cbn [rbind]. rewrite Hs. reflexivity. }
  unfold get_unslashed_attesting_indices. destruct (rmap_total (unslashed_of E s) l) as [ls Hls].
  { intros a Ha. destruct (Hone a Ha) as (r & Hr & _). eauto. }
  rewrite Hls. cbn [rbind]. eexists. split; [reflexivity|]. split; [apply NoDup_dedupN|]. intros i. rewrite In_dedupN, (In_concat_rmap _ _ _ _ Hls). split.
  - intros (a & r & Ha & Hr & Hi). destruct (Hone a Ha) as (r' & Hr' & Hin). assert (r' = r) by congruence. subst r'.
    apply Hin in Hi as (v & Hv & Hs & com & k & H). exists v. split; [exact Hv|]. split; [exact Hs|]. exists a, com, k. tauto.
  - intros (v & Hv & Hs & a & com & k & Ha & H). destruct (Hone a Ha) as (r & Hr & Hin). exists a, r. split; [exact Ha|]. split; [exact Hr|].
    apply Hin. exists v. split; [exact Hv|]. split; [exact Hs|]. eauto.
Qed.
Lemma matching_target s e : state_shape E s -> slot_small s -> 0 < slot s mod SLOTS_PER_EPOCH E -> e = epoch_of E s \/ e = prev_epoch_of E s ->
  exists l, get_matching_target_attestations E s e = Ok l /\ forall a, In a l <->
    In a (if e =? epoch_of E s then current_epoch_attestations s else previous_epoch_attestations s)
    /\ recorded_root E s (e * SLOTS_PER_EPOCH E) = Some (cp_root (ad_target (pa_data a))).
Proof.
  intros Hsh Hs Hm He. unfold get_matching_target_attestations, get_matching_source_attestations.
  rewrite (previous_epoch_ok E Hctx), (current_epoch_ok E Hctx). cbn [rbind].
  assert (Hc : negb (prev_epoch_of E s =? e) && negb (epoch_of E s =? e) = false).
  { destruct He as [->| ->]; rewrite N.eqb_refl; cbn [negb andb]; [apply andb_false_r|reflexivity]. }
  rewrite Hc. cbn [rbind]. set (l0 := if e =? epoch_of E s then _ else _).
  destruct (block_root_epoch s e Hsh Hs He Hm) as [Hg Hr].
  destruct l0 as [|a0 l0]; [exists []; split; [reflexivity|]; intros a; cbn; tauto|].
  rewrite Hg. cbn [rbind]. eexists. split; [reflexivity|]. intros a. rewrite filter_In, bytes_eqb_true, Hr.
  split; intros [H1 H2]; split; try exact H1; congruence.
Qed.
Lemma voters_phase0 s e : state_shape E s -> slot_small s -> 0 < slot s mod SLOTS_PER_EPOCH E -> votes_recorded E Phase0 s ->
  e = epoch_of E s \/ e = prev_epoch_of E s ->
  exists ta l, get_matching_target_attestations E s e = Ok ta /\ get_unslashed_attesting_indices E s ta = Ok l
    /\ NoDup l /\ forall i, In i l <-> voted_target E Phase0 s e i.
Proof.
  intros Hsh Hs Hm Hv He. destruct (matching_target s e Hsh Hs Hm He) as (ta & Hta & Hin).
  destruct (unslashed_attesting s ta Hsh) as (l & Hl & Hnd & Hil).
  { intros a Ha. apply Hin in Ha as [Ha _]. apply Hv. apply in_or_app. destruct (e =? epoch_of E s); auto. }
  exists ta, l. split; [exact Hta|]. split; [exact Hl|]. split; [exact Hnd|]. intros i. rewrite Hil. unfold voted_target. split.
  - intros (v & Hv' & Hs' & a & com & k & Ha & H). apply Hin in Ha as [H1 H2]. exists v. split; [exact Hv'|]. split; [exact Hs'|]. exists a, com, k. tauto.
  - intros (v & Hv' & Hs' & a & com & k & H1 & H2 & H). exists v. split; [exact Hv'|]. split; [exact Hs'|]. exists a, com, k. split; [apply Hin; tauto|tauto].
Qed.
Lemma voter_in_range f s e i : voted_target E f s e i -> i < lenN (validators s).
Proof. intros (v & Hv & _). eapply nthN_some; eauto. Qed.
Lemma weight_ok f s e l : stake_fits s -> NoDup l -> (forall i, In i l <-> voted_target E f s e i) ->
  get_total_balance E s l = Ok (N.max (effective_sum s l) (EFFECTIVE_BALANCE_INCREMENT E))
  /\ 3 * N.max (effective_sum s l) (EFFECTIVE_BALANCE_INCREMENT E) < 2 ^ 64.
Proof.
  intros Hst Hnd Hin. assert (Hr : forall i, In i l -> i < lenN (validators s)) by (intros i Hi; apply Hin in Hi; eapply voter_in_range; eauto).
  pose proof (effective_sum_le s l Hnd Hr) as Hle. unfold stake_fits in Hst.
  assert (Hinc : EFFECTIVE_BALANCE_INCREMENT E <= 4294967296) by (clear - Hctx; ctxs Hctx; lia).
  split; [|pows; lia]. rewrite get_total_balance_ok by exact Hr. destruct (N.ltb_spec (effective_sum s l) U64) as [_|Hc]; [reflexivity|pows; lia].
Qed.
Lemma target_weight_fun f s e w w' : target_weight E f s e w -> target_weight E f s e w' -> w = w'.
Proof.
  intros (l & N1 & H1 & ->) (l' & N2 & H2 & ->). f_equal. unfold effective_sum. apply sumN_perm, Permutation_map, NoDup_Permutation; auto.
  intros i. rewrite H1, H2. reflexivity.
Qed.
Lemma active_total s : stake_fits s -> active_balance_fits E s /\ 2 * active_balance E s < 2 ^ 64.
Proof.
  intros Hst. unfold active_balance_fits, active_balance. set (l := active_set s (epoch_of E s)).
  assert (Hle : effective_sum s l <= sumN (map v_effective_balance (validators s))).
  { apply effective_sum_le; [apply NoDup_indices_where|]. intros i. apply active_in_range. }
  assert (Hinc : EFFECTIVE_BALANCE_INCREMENT E <= 4294967296) by (clear - Hctx; ctxs Hctx; lia).
  unfold stake_fits in Hst. split; pows; lia.
Qed.
Lemma active_balance_ok s : active_balance_fits E s -> get_total_active_balance E s = Ok (active_balance E s).
Proof.
  intros H. rewrite get_total_active_balance_ok by exact Hctx. unfold active_balance_fits in H.
  destruct (N.ltb_spec (effective_sum s (active_set s (epoch_of E s))) U64) as [_|Hc]; [reflexivity|]. pows. lia.
Qed.
Lemma target_balances_ok f s : state_shape E s -> slot_small s -> 0 < slot s mod SLOTS_PER_EPOCH E -> votes_recorded E f s -> stake_fits s ->
  exists wp wc, target_balances E f s = Ok (active_balance E s, wp, wc)
    /\ target_weight E f s (prev_epoch_of E s) wp /\ target_weight E f s (epoch_of E s) wc /\ 3 * wp < 2 ^ 64 /\ 3 * wc < 2 ^ 64.
Proof.
  intros Hsh Hs Hm Hv Hst. unfold target_balances. rewrite (previous_epoch_ok E Hctx), (current_epoch_ok E Hctx). cbn [rbind].
  destruct (active_total s Hst) as [Hfit _].
  assert (Ht : get_total_active_balance E s = Ok (active_balance E s)) by (apply active_balance_ok; exact Hfit).
  assert (Hd : f = Phase0 \/ f <> Phase0) by (destruct f; [left; reflexivity|right; discriminate..]).
  destruct Hd as [->|Hf].
  - destruct (voters_phase0 s (prev_epoch_of E s) Hsh Hs Hm Hv (or_intror eq_refl)) as (pa & pl & Hp1 & Hp2 & Hp3 & Hp4).
    destruct (voters_phase0 s (epoch_of E s) Hsh Hs Hm Hv (or_introl eq_refl)) as (ca & cl & Hc1 & Hc2 & Hc3 & Hc4).
    destruct (weight_ok _ _ _ pl Hst Hp3 Hp4) as [P1 P2]. destruct (weight_ok _ _ _ cl Hst Hc3 Hc4) as [C1 C2].
    rewrite Hp1, Hc1, Ht. cbn [rbind]. unfold get_attesting_balance. rewrite Hp2, Hc2. cbn [rbind]. rewrite P1, C1. cbn [rbind].
    do 2 eexists. split; [reflexivity|]. split; [exists pl; auto|]. split; [exists cl; auto|]. auto.
  - destruct (voters_altair f s (prev_epoch_of E s) Hf Hv (or_intror eq_refl)) as (pl & Hp2 & Hp3 & Hp4).
    destruct (voters_altair f s (epoch_of E s) Hf Hv (or_introl eq_refl)) as (cl & Hc2 & Hc3 & Hc4).
    destruct (weight_ok _ _ _ pl Hst Hp3 Hp4) as [P1 P2]. destruct (weight_ok _ _ _ cl Hst Hc3 Hc4) as [C1 C2].
    exists (N.max (effective_sum s pl) (EFFECTIVE_BALANCE_INCREMENT E)), (N.max (effective_sum s cl) (EFFECTIVE_BALANCE_INCREMENT E)).
    split; [|split; [exists pl; auto|split; [exists cl; auto|auto]]].
    destruct f; [contradiction|..]; rewrite Hp2, Hc2, Ht; cbn [rbind]; rewrite P1, C1; reflexivity.
Qed.
Lemma finality_run f s : state_shape E s -> slot_small s -> 0 < slot s mod SLOTS_PER_EPOCH E -> votes_recorded E f s -> stake_fits s -> justified_small s ->
  1 < epoch_of E s ->
  exists wp wc, target_weight E f s (prev_epoch_of E s) wp /\ target_weight E f s (epoch_of E s) wc
    /\ process_justification_and_finalization E f s
       = (Ok tt, finality_after E s (supermajority wp (active_balance E s)) (supermajority wc (active_balance E s))).
Proof.
  intros Hsh Hs Hm Hv Hst Hj He. destruct (target_balances_ok f s Hsh Hs Hm Hv Hst) as (wp & wc & Hb & W1 & W2 & B1 & B2).
  exists wp, wc. split; [exact W1|]. split; [exact W2|]. unfold process_justification_and_finalization.
  rewrite (run_rd _ _ _ (epoch_of E s)) by (apply current_epoch_ok; exact Hctx).
  destruct (N.leb_spec (epoch_of E s) (GENESIS_EPOCH + 1)) as [Hle|_]; [unfold GENESIS_EPOCH in Hle; lia|].
  rewrite (run_rd _ _ _ (active_balance E s, wp, wc)) by exact Hb. cbn [fst snd].
  apply weigh_run; auto. apply (active_total s Hst).
Qed.

(** ** monotonicity along a chain *)
(** whatever the arithmetic does, the checkpoints only move along these lines *)
Definition finality_moves (s s' : BeaconState) : Prop :=
  slot s' = slot s
  /\ (previous_justified_checkpoint s' = previous_justified_checkpoint s /\ current_justified_checkpoint s' = current_justified_checkpoint s
      /\ finalized_checkpoint s' = finalized_checkpoint s
      \/ previous_justified_checkpoint s' = current_justified_checkpoint s
         /\ (current_justified_checkpoint s' = current_justified_checkpoint s
             \/ cp_epoch (current_justified_checkpoint s') = epoch_of E s \/ cp_epoch (current_justified_checkpoint s') = prev_epoch_of E s)
         /\ (finalized_checkpoint s' = finalized_checkpoint s \/ finalized_checkpoint s' = previous_justified_checkpoint s
             \/ finalized_checkpoint s' = current_justified_checkpoint s)).
Lemma justify_moves e k s r s' : justify E e k s = (r, s') ->
  slot s' = slot s /\ previous_justified_checkpoint s' = previous_justified_checkpoint s /\ finalized_checkpoint s' = finalized_checkpoint s
  /\ (current_justified_checkpoint s' = current_justified_checkpoint s \/ cp_epoch (current_justified_checkpoint s') = e).
Proof.
  unfold justify, sbind, rd, md. destruct (get_block_root E s e); intros [= <- <-]; gs; auto.
Qed.
Lemma finalize_moves lo n cp d cur s r s' : finalize_if E lo n cp d cur s = (r, s') ->
  slot s' = slot s /\ previous_justified_checkpoint s' = previous_justified_checkpoint s
  /\ current_justified_checkpoint s' = current_justified_checkpoint s
  /\ (finalized_checkpoint s' = finalized_checkpoint s \/ finalized_checkpoint s' = cp).
Proof.
  unfold finalize_if, sbind, rd. destruct (forallb _ _).
  - destruct (add E (cp_epoch cp) d) as [x| | |]; cbn [rbind]; try (intros [= <- <-]; auto; fail).
    destruct (x =? cur); cbn [swhen]; unfold md, sret; intros [= <- <-]; gs; auto.
  - unfold swhen, sret. intros [= <- <-]; auto.
Qed.
Lemma weigh_moves total pt ct s s' : weigh_justification_and_finalization E total pt ct s = (Ok tt, s') -> finality_moves s s'.
Proof.
  unfold weigh_justification_and_finalization. rewrite (run_rd _ _ _ (prev_epoch_of E s)) by (apply previous_epoch_ok; exact Hctx).
  rewrite (run_rd _ _ _ (epoch_of E s)) by (apply current_epoch_ok; exact Hctx).
  rewrite (run_rd _ _ _ (previous_justified_checkpoint s)) by reflexivity.
  rewrite (run_rd _ _ _ (current_justified_checkpoint s)) by reflexivity.
  rewrite !run_md. intros H. gsh H.
  set (s1 := set_justification_bits _ _) in H.
  assert (A1 : slot s1 = slot s /\ previous_justified_checkpoint s1 = current_justified_checkpoint s
     /\ current_justified_checkpoint s1 = current_justified_checkpoint s /\ finalized_checkpoint s1 = finalized_checkpoint s) by (unfold s1; gs; auto).
  clearbody s1. destruct A1 as (A1 & A2 & A3 & A4).
  apply sbind_ok_inv in H as (x1 & t1 & H1 & H). apply inv_lift in H1 as [_ ->].
  apply sbind_ok_inv in H as (x2 & t2 & H1 & H). apply inv_lift in H1 as [_ ->].
  apply sbind_ok_inv in H as ([] & s2 & H1 & H).
  assert (B : slot s2 = slot s /\ previous_justified_checkpoint s2 = current_justified_checkpoint s /\ finalized_checkpoint s2 = finalized_checkpoint s
    /\ (current_justified_checkpoint s2 = current_justified_checkpoint s \/ cp_epoch (current_justified_checkpoint s2) = prev_epoch_of E s)).
  { destruct (x2 <=? x1); cbn [swhen] in H1.
    - apply justify_moves in H1 as (-> & -> & -> & [->|H1]); rewrite ?A1, ?A2, ?A3, ?A4; auto 6.
    - apply inv_ret in H1 as [_ ->]. rewrite A1, A2, A3, A4. auto. }
  clear H1 A1 A2 A3 A4. destruct B as (A1 & A2 & A3 & A4).
  apply sbind_ok_inv in H as (x3 & t3 & H1 & H). apply inv_lift in H1 as [_ ->].
  apply sbind_ok_inv in H as (x4 & t4 & H1 & H). apply inv_lift in H1 as [_ ->].
  apply sbind_ok_inv in H as ([] & s3 & H1 & H).
  assert (B : slot s3 = slot s /\ previous_justified_checkpoint s3 = current_justified_checkpoint s /\ finalized_checkpoint s3 = finalized_checkpoint s
    /\ (current_justified_checkpoint s3 = current_justified_checkpoint s \/ cp_epoch (current_justified_checkpoint s3) = epoch_of E s
        \/ cp_epoch (current_justified_checkpoint s3) = prev_epoch_of E s)).
  { destruct (x4 <=? x3); cbn [swhen] in H1.
    - apply justify_moves in H1 as (-> & -> & -> & [->|H1]); rewrite ?A1, ?A2, ?A3; tauto.
    - apply inv_ret in H1 as [_ ->]. rewrite A1, A2, A3. tauto. }
  clear H1 A1 A2 A3 A4. destruct B as (A1 & A2 & A3 & A4).
  apply sbind_ok_inv in H as ([] & s4 & H1 & H). apply finalize_moves in H1 as (B1 & B2 & B3 & B4).
  apply sbind_ok_inv in H as ([] & s5 & H1 & H). apply finalize_moves in H1 as (C1 & C2 & C3 & C4).
  apply sbind_ok_inv in H as ([] & s6 & H1 & H). apply finalize_moves in H1 as (D1 & D2 & D3 & D4).
  apply finalize_moves in H as (F1 & F2 & F3 & F4).
  split; [congruence|]. right. split; [congruence|]. split; [rewrite F3, D3, C3, B3; exact A4|].
  destruct F4 as [->| ->]; [|auto]. destruct D4 as [->| ->]; [|auto]. destruct C4 as [->| ->]; [|auto]. destruct B4 as [->| ->]; auto.
Qed.
Lemma process_moves f s s' : process_justification_and_finalization E f s = (Ok tt, s') -> finality_moves s s'.
Proof.
  unfold process_justification_and_finalization. rewrite (run_rd _ _ _ (epoch_of E s)) by (apply current_epoch_ok; exact Hctx).
  destruct (epoch_of E s <=? GENESIS_EPOCH + 1).
  - intros H. apply inv_ret in H as [_ ->]. split; auto.
  - intros H. apply sbind_ok_inv in H as (b & t & H1 & H). apply inv_rd in H1 as [_ ->]. apply weigh_moves in H. exact H.
Qed.
Lemma epoch_moves f s s' : process_epoch E f s = (Ok tt, s') -> finality_moves s s'.
Proof.
  rewrite epoch_split. intros H. apply sbind_ok_inv in H as ([] & s1 & H1 & H). apply process_moves in H1.
  pose proof (evp_tail E f false s1) as Ht. rewrite H in Ht. cbn [snd] in Ht.
  destruct (frame_finality E f _ _ _ Ht ltac:(discriminate)) as (F1 & F2 & F3 & F4).
  pose proof (frame_slot E f _ _ _ Ht ltac:(discriminate)) as F0. destruct H1 as [H0 H1]. split; [congruence|]. rewrite F2, F3, F4. exact H1.
Qed.
(** the order together with what is compared *)
Definition ordered_later (s s' : BeaconState) : Prop :=
  finality_ordered E s -> finality_ordered E s' /\ slot s <= slot s'
  /\ cp_epoch (previous_justified_checkpoint s) <= cp_epoch (previous_justified_checkpoint s')
  /\ cp_epoch (current_justified_checkpoint s) <= cp_epoch (current_justified_checkpoint s')
  /\ cp_epoch (finalized_checkpoint s) <= cp_epoch (finalized_checkpoint s').
Lemma ol_refl s : ordered_later s s. Proof. intros H. repeat split; try apply H; lia. Qed.
Lemma ol_trans a b c : ordered_later a b -> ordered_later b c -> ordered_later a c.
Proof. intros H1 H2 H. destruct (H1 H) as (A0 & A1 & A2 & A3 & A4). destruct (H2 A0) as (B0 & B1 & B2 & B3 & B4). split; [exact B0|]. lia. Qed.
Lemma ol_same s s' : slot s' = slot s -> previous_justified_checkpoint s' = previous_justified_checkpoint s ->
  current_justified_checkpoint s' = current_justified_checkpoint s -> finalized_checkpoint s' = finalized_checkpoint s -> ordered_later s s'.
Proof.
  intros H1 H2 H3 H4 H. unfold finality_ordered, prev_epoch_of, epoch_of in *. rewrite H1, H2, H3, H4. repeat split; try apply H; lia.
Qed.
Lemma ol_block f b s r s' : process_block E f b s = (r, s') -> ordered_later s s'.
Proof.
  intros H. pose proof (evp_block E f b s) as He. rewrite H in He. cbn [snd] in He.
  destruct (frame_finality E f _ _ _ He ltac:(discriminate)) as (F1 & F2 & F3 & F4).
  pose proof (frame_slot E f _ _ _ He ltac:(discriminate)) as F0. apply ol_same; assumption.
Qed.
Lemma slot_frame f s r s' : process_slot E f s = (r, s') -> slot s' = slot s /\ previous_justified_checkpoint s' = previous_justified_checkpoint s
  /\ current_justified_checkpoint s' = current_justified_checkpoint s /\ finalized_checkpoint s' = finalized_checkpoint s.
Proof.
  intros H. pose proof (evp_slot E f s) as He. rewrite H in He. cbn [snd] in He.
  destruct (frame_finality E f _ _ _ He ltac:(discriminate)) as (F1 & F2 & F3 & F4). split; [|auto].
  clear - H. unfold process_slot, sbind, rd, md in H.
  repeat match type of H with context [match ?m with Ok _ => _ | _ => _ end] => destruct m end; injection H as <- <-; gs; try reflexivity;
    repeat match goal with |- context [if ?c then _ else _] => destruct c end; gs; reflexivity.
Qed.
Lemma ol_advance f s s' : slot s + 1 < U64 -> advance_slot E f s = (Ok tt, s') -> slot s' = slot s + 1 /\ ordered_later s s'.
Proof.
  intros Hs. unfold advance_slot. intros H. apply sbind_ok_inv in H as ([] & s1 & H1 & H). apply slot_frame in H1 as (A1 & A2 & A3 & A4).
  assert (Hspe : SLOTS_PER_EPOCH E <> 0) by (unfold ctx_sane in Hctx; lia).
  rewrite (run_rd _ _ _ ((slot s + 1) mod SLOTS_PER_EPOCH E)) in H.
  2:{ unfold add. rewrite A1, uadd_ok by exact Hs. cbn [rbind]. apply umod_ok. exact Hspe. }
  apply sbind_ok_inv in H as ([] & s2 & H2 & H).
  assert (Hadd : forall x, slot x = slot s -> add E (slot x) 1 = Ok (slot s + 1)) by (intros x ->; unfold add; apply uadd_ok; exact Hs).
  destruct (N.eqb_spec ((slot s + 1) mod SLOTS_PER_EPOCH E) 0) as [Hm|Hm]; cbn [swhen] in H2.
  - apply epoch_moves in H2 as (B0 & B). rewrite (run_rd _ _ _ (slot s + 1)) in H by (apply Hadd; congruence).
    apply inv_md in H. subst s'. gs. split; [reflexivity|]. intros (O1 & O2 & O3).
    unfold finality_ordered, prev_epoch_of, epoch_of. gs.
    assert (Hd : (slot s + 1) / SLOTS_PER_EPOCH E = slot s / SLOTS_PER_EPOCH E + 1).
    { pose proof (N.div_mod (slot s + 1) (SLOTS_PER_EPOCH E) Hspe) as D1. pose proof (N.div_mod (slot s) (SLOTS_PER_EPOCH E) Hspe) as D2.
      pose proof (N.mod_lt (slot s) (SLOTS_PER_EPOCH E) Hspe) as D3. rewrite Hm in D1.
      set (q := (slot s + 1) / SLOTS_PER_EPOCH E) in *. set (q' := slot s / SLOTS_PER_EPOCH E) in *. set (r := slot s mod SLOTS_PER_EPOCH E) in *.
      clear - D1 D2 D3. nia. }
    rewrite Hd. unfold prev_epoch_of, epoch_of in O3, B. rewrite A1, A2, A3, A4 in B.
    set (e := slot s / SLOTS_PER_EPOCH E) in *. rewrite N.add_sub.
    destruct B as [(-> & -> & ->)|(-> & Hc & Hf)].
    + repeat split; lia.
    + assert (Hc' : cp_epoch (current_justified_checkpoint s) <= cp_epoch (current_justified_checkpoint s2) <= e).
      { destruct Hc as [->|[->| ->]]; lia. }
      assert (Hf' : cp_epoch (finalized_checkpoint s) <= cp_epoch (finalized_checkpoint s2) <= cp_epoch (current_justified_checkpoint s)).
      { destruct Hf as [->|[->| ->]]; lia. }
      repeat split; lia.
  - apply inv_ret in H2 as [_ ->]. rewrite (run_rd _ _ _ (slot s + 1)) in H by (apply Hadd; exact A1).
    apply inv_md in H. subst s'. gs. split; [reflexivity|]. intros (O1 & O2 & O3).
    unfold finality_ordered, prev_epoch_of, epoch_of in *. gs. rewrite A2, A3, A4.
    assert (slot s / SLOTS_PER_EPOCH E <= (slot s + 1) / SLOTS_PER_EPOCH E) by (apply N.div_le_mono; lia).
    repeat split; lia.
Qed.
Lemma ol_loop f target : target < 2 ^ 64 -> forall n s s', slots_loop E f n target s = (Ok tt, s') -> ordered_later s s'.
Proof.
  intros Ht. induction n as [|n IH]; intros s s' H; cbn [slots_loop] in H; rewrite (run_rd _ _ s (slot s)) in H by reflexivity;
    destruct (N.ltb_spec (slot s) target) as [Hlt|Hge].
  - discriminate H.
  - apply inv_ret in H as [_ ->]. apply ol_refl.
  - apply sbind_ok_inv in H as ([] & s1 & H1 & H). apply ol_advance in H1 as [_ H1]; [|pows; lia]. eapply ol_trans; [exact H1|]. eapply IH; exact H.
  - apply inv_ret in H as [_ ->]. apply ol_refl.
Qed.
Lemma ol_slots f target s s' : target < 2 ^ 64 -> process_slots E f target s = (Ok tt, s') -> ordered_later s s'.
Proof.
  intros Ht. unfold process_slots. rewrite (run_rd _ _ s (slot s)) by reflexivity. destruct (target <=? slot s); [discriminate|]. apply ol_loop. exact Ht.
Qed.
Lemma ol_transition f v sb s s' : bk_slot (sb_message sb) < 2 ^ 64 -> state_transition E f v sb s = (Ok tt, s') -> ordered_later s s'.
Proof.
  intros Ht H. unfold state_transition in H. apply sbind_ok_inv in H as ([] & s1 & H1 & H). apply ol_slots in H1; [|exact Ht].
  eapply ol_trans; [exact H1|]. unfold state_transition_block_in_slot in H.
  apply sbind_ok_inv in H as ([] & s2 & H2 & H). assert (s2 = s1) by (destruct v; cbn [swhen] in H2; [apply inv_rd in H2|apply inv_ret in H2]; tauto). subst s2.
  apply sbind_ok_inv in H as ([] & s3 & H3 & H). apply ol_block in H3.
  assert (s' = s3) by (destruct v; cbn [swhen] in H; [apply inv_rd in H|apply inv_ret in H]; tauto). subst s'. exact H3.
Qed.

(** fork upgrades *)
Definition fin_same (s s' : BeaconState) : Prop :=
  slot s' = slot s /\ previous_justified_checkpoint s' = previous_justified_checkpoint s
  /\ current_justified_checkpoint s' = current_justified_checkpoint s /\ finalized_checkpoint s' = finalized_checkpoint s.
Lemma fs_refl s : fin_same s s. Proof. repeat split. Qed.
Lemma fs_trans a b c : fin_same a b -> fin_same b c -> fin_same a c.
Proof. intros (A1&A2&A3&A4) (B1&B2&B3&B4). repeat split; congruence. Qed.
Lemma fs_mod i g : pres fin_same (mod_validator i g).
Proof. intros s. unfold mod_validator, sbind, rd, md. destruct (idx _ _); cbn [snd]; try apply fs_refl. repeat split. Qed.
Lemma fs_finish : pres fin_same (electra_finish E).
Proof.
  unfold electra_finish, queue_entire_balance_and_reset_validator, queue_excess_active_balance.
  repeat first [apply pres_bind; [exact fs_trans| |intros] | apply pres_rd; exact fs_refl | apply pres_lift; exact fs_refl
    | apply pres_for; [exact fs_refl|exact fs_trans|intros] | apply fs_mod | apply pres_if | apply pres_ret; exact fs_refl
    | apply pres_md; intros; repeat split].
Qed.
Lemma upgrade_altair_fin s s' : upgrade_to_altair E s = Ok s' -> fin_same s s'.
Proof.
  unfold upgrade_to_altair, translate_participation. intros H. apply rbind_ok_inv in H as (e & _ & H). apply rbind_ok_inv in H as (post & Hp & H).
  apply rbind_ok_inv in Hp as (part & _ & Hp). apply Ok_inj in Hp. subst post. apply rbind_ok_inv in H as (c & _ & H). apply Ok_inj in H. subst s'.
  repeat split.
Qed.
Lemma upgrade_electra_fin s s' : upgrade_to_electra E s = Ok s' -> fin_same s s'.
Proof.
  unfold upgrade_to_electra. intros H. apply rbind_ok_inv in H as (e & _ & H). apply rbind_ok_inv in H as (ee & _ & H). apply rbind_ok_inv in H as (ec & _ & H).
  pose proof (fs_finish (electra_base E e ee ec s)) as Hp. destruct (electra_finish E _) as [r post]. apply rbind_ok_inv in H as (u & _ & H). apply Ok_inj in H. subst s'.
  cbn [snd] in Hp. eapply fs_trans; [|exact Hp]. repeat split.
Qed.
Lemma fin_same_ol s s' : fin_same s s' -> ordered_later s s'.
Proof. intros (A & B & C & D). apply ol_same; assumption. Qed.
Lemma chain_later p p' : chain E p p' -> ordered_later (snd p) (snd p').
Proof.
  induction 1 as [a b H|a|a b c H1 IH1 H2 IH2]; [|apply ol_refl|eapply ol_trans; eauto].
  inversion H; subst; cbn [snd].
  - eapply ol_transition; eauto.
  - eapply ol_slots; eauto.
  - eapply ol_block; eauto.
  - apply fin_same_ol, upgrade_altair_fin. assumption.
  - unfold upgrade_to_bellatrix in H0. apply rbind_ok_inv in H0 as (e & _ & H0). apply Ok_inj in H0. subst. apply fin_same_ol. repeat split.
  - unfold upgrade_to_capella in H0. apply rbind_ok_inv in H0 as (e & _ & H0). cbv zeta in H0. apply Ok_inj in H0. subst. apply fin_same_ol. repeat split.
  - unfold upgrade_to_deneb in H0. apply rbind_ok_inv in H0 as (e & _ & H0). cbv zeta in H0. apply Ok_inj in H0. subst. apply fin_same_ol. repeat split.
  - apply fin_same_ol, upgrade_electra_fin. assumption.
Qed.
End WithEnv.
