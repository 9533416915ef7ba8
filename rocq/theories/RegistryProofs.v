(** * Proofs about registry updates (proof file; no model definitions) *)
From Verif Require Import Base BaseLemmas Types Ctx Env Helpers HelpersAltair HelpersElectra Block Epoch Transition StLemmas Frame
  SpecCommon SpecShuffle SpecHelpers SpecOps SpecElectra SpecAtt SpecFinality SpecSlots SpecEpoch
  HelperProofs HelperProofs2 OpsProofs ElectraProofs SlashProofs AttProofs FrameProofs FinalityProofs EpochProofs.
From Coq Require Import Sorted Permutation.

Section WithEnv.
Variable E : Env.
Hypothesis Hctx : ctx_sane E.
Hypothesis Hel : ctx_sane_electra E.

Definition room (f : Fork) (n : N) (t : BeaconState) : Prop :=
  match f with
  | Electra => exit_room E Electra t
  | _ => exists B, exits_below t B /\ earliest_exit E t < B /\ B + n <= 2 ^ 62
  end.
Lemma room_not_electra f n t : f <> Electra -> room f n t = (exists B, exits_below t B /\ earliest_exit E t < B /\ B + n <= 2 ^ 62).
Proof. intros H. destruct f; try reflexivity. contradiction. Qed.
Lemma exit_room_not_electra f t : f <> Electra -> exit_room E f t = exits_below t (2 ^ 62).
Proof. intros H. destruct f; try reflexivity. contradiction. Qed.
Lemma room_exit_room f n t : room f n t -> exit_room E f t.
Proof.
  destruct (Fork_eq_dec f Electra) as [->|Hf]; [auto|]. rewrite (room_not_electra _ _ _ Hf), (exit_room_not_electra _ _ Hf).
  intros (B & H1 & _ & H2) v Hv Hn. specialize (H1 v Hv Hn). lia.
Qed.
Lemma room_le f n m t : m <= n -> room f n t -> room f m t.
Proof.
  intros Hle. destruct (Fork_eq_dec f Electra) as [->|Hf]; [auto|]. rewrite !(room_not_electra _ _ _ Hf).
  intros (B & H1 & H2 & H3). exists B. split; [exact H1|]. split; [exact H2|lia].
Qed.
Lemma staying_same : forall vs i v v1, nthN vs i = Some v -> v_exit_epoch v1 = v_exit_epoch v -> v_effective_balance v1 = v_effective_balance v ->
  staying (updN vs i v1) = staying vs.
Proof.
  induction vs as [|w vs IH]; intros i v v1 Hv H1 H2; [discriminate|]. rewrite nthN_cons in Hv. unfold staying in *. cbn [updN filter].
  destruct (N.eqb_spec i 0) as [->|Hi].
  - injection Hv as ->. cbn [filter]. rewrite H1. destruct (v_exit_epoch v =? FAR_FUTURE_EPOCH); cbn [map]; rewrite ?sumN_cons, ?H2; reflexivity.
  - cbn [filter]. destruct (v_exit_epoch w =? FAR_FUTURE_EPOCH); cbn [map]; rewrite ?sumN_cons, (IH (i - 1) v v1) by assumption; reflexivity.
Qed.
Lemma room_elig f n t i v e : nthN (validators t) i = Some v -> room f n t -> room f n (set_validators (updN (validators t) i (set_v_activation_eligibility_epoch e v)) t).
Proof.
  intros Hv. set (t' := set_validators _ _).
  assert (Hd : same_duties E t t') by (apply same_duties_upd with (v := v); [exact Hv|reflexivity|reflexivity]).
  destruct (Fork_eq_dec f Electra) as [->|Hf].
  - intros (H1 & H2 & H3). destruct (same_duties_churn E t t' Hd) as (_ & Hfit & He & _). split; [auto|]. split; [exact H2|].
    unfold exit_queue_start. rewrite He. change (earliest_exit_epoch t') with (earliest_exit_epoch t). fold (exit_queue_start E t).
    unfold t'. gs. rewrite (staying_same _ _ v); [exact H3|exact Hv|reflexivity|reflexivity].
  - rewrite !(room_not_electra _ _ _ Hf). intros (B & H1 & H2 & H3). exists B. split; [|auto]. intros w Hw Hn. unfold t' in Hw. gsh Hw.
    apply In_updN in Hw as [->|Hw]; [|apply H1; assumption]. gs. gsh Hn. apply H1; [eapply nthN_In; eauto|exact Hn].
Qed.
Lemma room_exit f n t i v : slot_small t -> nthN (validators t) i = Some v -> room f (n + 1) t ->
  exists t1, initiate_exit E f i t = (Ok tt, t1) /\ room f n t1
    /\ (f <> Electra -> forall e, e <> FAR_FUTURE_EPOCH -> exits_at t1 e <= N.max (exits_at t e) (churn_limit E t)).
Proof.
  intros Hs Hv Hr. destruct (Fork_eq_dec f Electra) as [->|Hf].
  - destruct Hr as (Hf & Hx & Hq). destruct (N.eq_dec (v_exit_epoch v) FAR_FUTURE_EPOCH) as [Hne|Hne].
    + pose proof (staying_le _ _ _ Hv Hne) as Hsl.
      exists (exit_electra_state E t i v). split; [exact (initiate_exit_electra_ok E Hctx Hel t i v Hs Hf Hx ltac:(lia) ltac:(pows; lia) Hv Hne)|].
      split; [|contradiction].
      set (s1 := exit_electra_state E t i v). set (q := exit_slot E t (v_effective_balance v)).
      pose proof (exit_electra_duties E Hctx t i v Hs Hv Hne) as Hd. fold s1 in Hd.
      destruct (same_duties_churn E t s1 Hd) as (Hc & Hfit & He & _).
      destruct (exit_capacity_after E Hctx Hel t i v Hs Hv Hne) as (Hst & Hbu & Hcap). fold s1 q in Hst, Hbu, Hcap.
      pose proof (exit_churn_bounds E Hctx Hel t) as Hp.
      assert (Hqle : q <= exit_queue_start E t + v_effective_balance v).
      { unfold q, exit_slot. pose proof (churn_epochs_le (exit_churn E t) (exit_queue_budget E t) (v_effective_balance v) ltac:(lia)). lia. }
      assert (Hqne : q <> FAR_FUTURE_EPOCH) by (unfold FAR_FUTURE_EPOCH; pows; lia).
      split; [auto|]. split.
      * assert (exit_balance_to_consume s1 = exit_capacity E t q - v_effective_balance v) as -> by reflexivity.
        pose proof (churn_epochs_rest (exit_churn E t) (exit_queue_budget E t) (v_effective_balance v) ltac:(lia)) as Hrr.
        unfold exit_capacity. unfold q, exit_slot.
        replace (exit_queue_start E t + churn_epochs (exit_churn E t) (exit_queue_budget E t) (v_effective_balance v) - exit_queue_start E t)
          with (churn_epochs (exit_churn E t) (exit_queue_budget E t) (v_effective_balance v)) by lia.
        eapply N.le_lt_trans; [exact Hrr|]. unfold exit_queue_budget. destruct (earliest_exit_epoch t <? earliest_exit E t); pows; lia.
      * rewrite Hst. assert (validators s1 = updN (validators t) i (exited E q v)) as -> by reflexivity.
        pose proof (staying_upd (validators t) i v (exited E q v) Hv Hne ltac:(unfold exited; gs; exact Hqne)). lia.
    + exists t. split; [exact (initiate_exit_electra_noop E t i v Hv Hne)|]. split; [|contradiction]. repeat split; assumption.
  - rewrite (room_not_electra _ _ _ Hf) in *. destruct Hr as (B & Hb & He & HB).
    replace (initiate_exit E f i) with (initiate_validator_exit E i) by (destruct f; try reflexivity; contradiction).
    destruct (N.eq_dec (v_exit_epoch v) FAR_FUTURE_EPOCH) as [Hne|Hne].
    + pose proof (queue_head_lt E t _ Hb He) as Hq. pose proof (next_exit_bounds E t) as Hn.
      eexists. split; [apply (initiate_exit_ok E Hctx t i v Hv Hne Hs); pows; lia|]. split.
      * rewrite (room_not_electra _ _ _ Hf). exists (B + 1). split; [apply exits_below_after; [exact Hb|lia]|]. split; [|lia]. rewrite earliest_same. lia.
      * intros _ e Hee. apply exits_at_next; try assumption. pows; lia.
    + exists t. split; [exact (initiate_exit_noop E t i v Hv Hne)|]. split; [rewrite (room_not_electra _ _ _ Hf); exists B; split; [exact Hb|split; [exact He|lia]]|]. intros _ e Hee. lia.
Qed.

Definition queued (f : Fork) (epoch : N) (v : Validator) : Validator :=
  if enters_queue E f v then set_v_activation_eligibility_epoch (epoch + 1) v else v.
Definition no_exit (v : Validator) : Validator := set_v_exit_epoch 0 (set_v_withdrawable_epoch 0 v).
Definition reg_done (f : Fork) (t : BeaconState) (v v' : Validator) : Prop :=
  let v1 := queued f (epoch_of E t) v in
  no_exit v' = no_exit v1
  /\ (ejected E t v = true -> earliest_exit E t <= v_exit_epoch v' < 2 ^ 63 /\ v_withdrawable_epoch v' = v_exit_epoch v' + MIN_VALIDATOR_WITHDRAWABILITY_DELAY E)
  /\ (ejected E t v = false -> v' = v1).
Lemma queue_eligible_eq f v : queue_eligible E f v = enters_queue E f v. Proof. destruct f; reflexivity. Qed.
Definition exit_fields_only (f : Fork) (t t' : BeaconState) : Prop :=
  exists q b, t' = set_validators (validators t') (set_earliest_exit_epoch q (set_exit_balance_to_consume b t))
    /\ (f <> Electra -> q = earliest_exit_epoch t /\ b = exit_balance_to_consume t).
Lemma efo_refl f t : exit_fields_only f t t.
Proof. exists (earliest_exit_epoch t), (exit_balance_to_consume t). rewrite set_exit_balance_to_consume_id, set_earliest_exit_epoch_id, set_validators_id. auto. Qed.
Lemma efo_trans f a b c : exit_fields_only f a b -> exit_fields_only f b c -> exit_fields_only f a c.
Proof.
  intros (q & x & H1 & H2) (q' & x' & H3 & H4). exists q', x'. split.
  - rewrite H3 at 1. rewrite H1 at 1. reflexivity.
  - intros Hf. destruct (H2 Hf) as [-> ->]. destruct (H4 Hf) as [-> ->]. rewrite H1. split; reflexivity.
Qed.
Lemma efo_vals f t vs : exit_fields_only f t (set_validators vs t).
Proof. exists (earliest_exit_epoch t), (exit_balance_to_consume t). rewrite set_exit_balance_to_consume_id, set_earliest_exit_epoch_id. auto. Qed.

Lemma registry_step_run f n t i v : slot_small t -> room f (n + 1) t -> nthN (validators t) i = Some v ->
  exists t1 v1, registry_step E f (epoch_of E t) i t = (Ok tt, t1) /\ room f n t1 /\ same_duties E t t1 /\ exit_fields_only f t t1
    /\ lenN (validators t1) = lenN (validators t) /\ nthN (validators t1) i = Some v1 /\ reg_done f t v v1
    /\ (forall j, j <> i -> nthN (validators t1) j = nthN (validators t) j)
    /\ (f <> Electra -> forall e, e <> FAR_FUTURE_EPOCH -> exits_at t1 e <= N.max (exits_at t e) (churn_limit E t)).
Proof.
  intros Hs Hr Hv. pose proof (epoch_small E Hctx t Hs) as Hep. assert (Hlt : i < lenN (validators t)) by (eapply nthN_some; eauto).
  unfold registry_step. rewrite (run_rd _ _ _ v) by (apply idx_ok; exact Hv). rewrite queue_eligible_eq.
  set (t0 := set_validators (updN (validators t) i (queued f (epoch_of E t) v)) t).
  assert (H0 : swhen (enters_queue E f v) (let* e := lift (add E (epoch_of E t) 1) in mod_validator i (set_v_activation_eligibility_epoch e)) t = (Ok tt, t0)).
  { unfold t0, queued. destruct (enters_queue E f v); cbn [swhen].
    - rewrite (run_lift _ _ _ (epoch_of E t + 1)) by (unfold add; apply uadd_ok; pows; lia). apply mod_validator_ok. exact Hv.
    - rewrite updN_id by exact Hv. rewrite set_validators_id. reflexivity. }
  rewrite (run_bind _ _ _ _ _ H0). set (v0 := queued f (epoch_of E t) v) in *.
  assert (Hv0 : nthN (validators t0) i = Some v0) by (unfold t0; gs; apply nthN_updN_eq; exact Hlt).
  assert (F : v_effective_balance v0 = v_effective_balance v /\ v_exit_epoch v0 = v_exit_epoch v /\ (forall e, active_at e v0 = active_at e v)).
  { unfold v0, queued. destruct (enters_queue E f v); auto. }
  destruct F as (F1 & F2 & F3).
  assert (Hd0 : same_duties E t t0) by (apply same_duties_upd with (v := v); [exact Hv|exact F1|apply F3]).
  assert (Hr0 : room f (n + 1) t0).
  { unfold t0, v0, queued. destruct (enters_queue E f v); [apply room_elig; assumption|]. rewrite updN_id by exact Hv. rewrite set_validators_id. exact Hr. }
  assert (Hx0 : forall e, exits_at t0 e = exits_at t e).
  { intros e. unfold exits_at, t0. gs. pose proof (filter_upd_count (fun v => v_exit_epoch v =? e) (validators t) i v v0 Hv) as Hc. cbn beta in Hc. rewrite F2 in Hc.
    destruct (v_exit_epoch v =? e); lia. }
  assert (Hc0 : churn_limit E t0 = churn_limit E t).
  { unfold churn_limit. rewrite (proj1 (same_duties_sum E t t0 Hd0)). reflexivity. }
  assert (He0 : earliest_exit E t0 = earliest_exit E t) by reflexivity.
  rewrite (run_rd _ _ _ v0) by (apply idx_ok; exact Hv0).
  change (is_active_validator v0 (epoch_of E t)) with (active_at (epoch_of E t) v0). rewrite F3, F1.
  destruct (active_at (epoch_of E t) v && (v_effective_balance v <=? EJECTION_BALANCE E)) eqn:Hej; cbn [swhen].
  - assert (Hs0 : slot_small t0) by exact Hs.
    destruct (room_exit f n t0 i v0 Hs0 Hv0 Hr0) as (t1 & R1 & R2 & R3).
    destruct (exit_cases E Hctx Hel f t0 i v0 Hs0 (room_exit_room _ _ _ Hr0) Hv0) as (t1' & v1 & C1 & C2 & C3 & C4 & C5 & C6 & C7 & C8 & C9 & C10).
    assert (t1' = t1) by congruence. subst t1'. exists t1, v1. split; [exact R1|]. split; [exact R2|].
    split; [eapply same_duties_trans; eauto|]. split; [eapply efo_trans; [apply (efo_vals f t)|exact C10]|].
    split; [rewrite C4; unfold t0; gs; apply lenN_updN|]. split; [exact C2|]. split; [|split].
    + unfold reg_done. fold v0. split; [exact C6|]. unfold ejected. rewrite Hej. cbn [andb]. rewrite <- F2. split.
      * intros H. apply N.eqb_eq in H. rewrite <- He0. apply C8. exact H.
      * intros H. apply N.eqb_neq in H. specialize (C9 H). rewrite C9 in C2. congruence.
    + intros j Hj. rewrite C5 by exact Hj. unfold t0. gs. apply nthN_updN_ne. congruence.
    + intros Hf e Hne. specialize (R3 Hf e Hne). rewrite Hx0, Hc0 in R3. exact R3.
  - exists t0, v0. split; [reflexivity|]. split; [eapply room_le; [|exact Hr0]; lia|]. split; [exact Hd0|]. split; [apply efo_vals|].
    split; [unfold t0; gs; apply lenN_updN|]. split; [exact Hv0|]. split; [|split].
    + unfold reg_done. fold v0. split; [reflexivity|]. unfold ejected. rewrite Hej. cbn [andb]. split; [discriminate|reflexivity].
    + intros j Hj. unfold t0. gs. apply nthN_updN_ne. congruence.
    + intros _ e _. rewrite Hx0. lia.
Qed.
Lemma sd_epoch t t' : same_duties E t t' -> epoch_of E t' = epoch_of E t /\ slot t' = slot t.
Proof. intros (H & _). unfold epoch_of. rewrite H. auto. Qed.
Lemma reg_done_ext f t t' v v' : slot t' = slot t -> reg_done f t' v v' -> reg_done f t v v'.
Proof. intros H. unfold reg_done, ejected, earliest_exit, epoch_of. rewrite H. auto. Qed.
Lemma registry_loop f : forall l t, NoDup l -> (forall i, In i l -> i < lenN (validators t)) -> slot_small t -> room f (lenN l) t ->
  exists t', sfor l (registry_step E f (epoch_of E t)) t = (Ok tt, t') /\ same_duties E t t' /\ exit_fields_only f t t'
    /\ lenN (validators t') = lenN (validators t)
    /\ (forall i v, In i l -> nthN (validators t) i = Some v -> exists v', nthN (validators t') i = Some v' /\ reg_done f t v v')
    /\ (forall i, ~ In i l -> nthN (validators t') i = nthN (validators t) i)
    /\ (f <> Electra -> forall e, e <> FAR_FUTURE_EPOCH -> exits_at t' e <= N.max (exits_at t e) (churn_limit E t)).
Proof.
  induction l as [|i l IH]; intros t Hnd Hin Hs Hr.
  - exists t. split; [reflexivity|]. split; [apply same_duties_refl|]. split; [apply efo_refl|]. split; [reflexivity|]. split; [intros i v []|]. split; [reflexivity|]. intros; lia.
  - inversion Hnd as [|? ? Hx Hnd']; subst. rewrite lenN_cons in Hr. destruct (nthN_lt (validators t) i (Hin i (or_introl eq_refl))) as [v Hv].
    destruct (registry_step_run f (lenN l) t i v Hs Hr Hv) as (t1 & v1 & A1 & A2 & A3 & A4 & A5 & A6 & A7 & A8 & A9).
    destruct (sd_epoch t t1 A3) as [Hep Hsl].
    rewrite sfor_cons, (run_bind _ _ _ _ _ A1). rewrite <- Hep.
    destruct (IH t1) as (t' & B1 & B2 & B3 & B4 & B5 & B6 & B7).
    + exact Hnd'.
    + intros j Hj. rewrite A5. apply Hin. right; exact Hj.
    + unfold slot_small in *. rewrite Hsl. exact Hs.
    + exact A2.
    + exists t'. split; [exact B1|]. split; [eapply same_duties_trans; eauto|]. split; [eapply efo_trans; eauto|]. split; [congruence|]. split; [|split].
      * intros j w [<-|Hj] Hw.
        -- assert (w = v) by congruence. subst w. exists v1. split; [rewrite B6 by exact Hx; exact A6|exact A7].
        -- rewrite <- (A8 j) in Hw by (intros ->; contradiction). destruct (B5 j w Hj Hw) as (w' & W1 & W2). exists w'. split; [exact W1|].
           eapply reg_done_ext; [|exact W2]. exact Hsl.
      * intros j Hj. rewrite B6 by (intros H; apply Hj; right; exact H). apply A8. intros ->. apply Hj. left; reflexivity.
      * intros Hf e Hne. specialize (B7 Hf e Hne). specialize (A9 Hf e Hne).
        assert (Hc : churn_limit E t1 = churn_limit E t) by (unfold churn_limit; rewrite (proj1 (same_duties_sum E t t1 A3)); reflexivity).
        rewrite Hc in B7. lia.
Qed.

(** ** the queue *)
Lemma key_sort_sorted l : StronglySorted (fun a b => key_leb a b = true) (key_sort l).
Proof.
  assert (Htr : forall a b c, key_leb a b = true -> key_leb b c = true -> key_leb a c = true).
  { unfold key_leb. intros a b c H1 H2. destruct a as [a1 a2], b as [b1 b2], c as [c1 c2]. cbn [fst snd] in *. lia. }
  assert (Hto : forall a b, key_leb a b = false -> key_leb b a = true).
  { unfold key_leb. intros a b H. destruct a as [a1 a2], b as [b1 b2]. cbn [fst snd] in *. lia. }
  induction l as [|x l IH]; [constructor|]. cbn [key_sort fold_right]. fold (key_sort l). revert IH. generalize (key_sort l). clear l.
  induction l as [|y l IHl]; intros H; cbn [key_insert]; [repeat constructor|]. inversion H as [|? ? H1 H2]; subst. destruct (key_leb x y) eqn:Hxy.
  - constructor; [exact H|]. constructor; [exact Hxy|]. eapply Forall_impl; [|exact H2]. intros z Hz. cbv beta in Hz. eapply Htr; eauto.
  - constructor; [apply IHl; exact H1|]. apply Forall_forall. intros z Hz. eapply Permutation_in in Hz; [|symmetry; apply key_insert_perm].
    destruct Hz as [<-|Hz]; [apply Hto; exact Hxy|]. rewrite Forall_forall in H2. apply H2. exact Hz.
Qed.
Lemma ready_eq s v : is_eligible_for_activation s v = activation_ready s v. Proof. reflexivity. Qed.
Lemma activation_queue_spec s : is_activation_queue s (activation_queue s).
Proof.
  split; [|intros i; rewrite In_activation_queue; reflexivity]. unfold activation_queue.
  set (l := key_sort (eligible_activations s (validators s) 0)).
  assert (Hk : forall p, In p l -> fst p = eligibility_of s (snd p)).
  { intros [x i] Hp. eapply Permutation_in in Hp; [|symmetry; apply key_sort_perm]. apply In_eligible_activations in Hp as (_ & v & Hv & _ & ->).
    rewrite N.sub_0_r in Hv. unfold eligibility_of. cbn [fst snd]. rewrite Hv. reflexivity. }
  assert (Hs : StronglySorted (fun a b => key_leb a b = true) l) by apply key_sort_sorted.
  assert (Hnd : NoDup (map snd l)).
  { eapply Permutation_NoDup; [|apply (NoDup_eligible_activations s (validators s) 0)]. apply Permutation_map, key_sort_perm. }
  clearbody l. induction l as [|p l IH]; [constructor|]. cbn [map] in *. inversion Hs as [|? ? H1 H2]; subst. inversion Hnd as [|? ? H3 H4]; subst.
  constructor; [apply IH; auto; intros; apply Hk; right; assumption|]. apply Forall_forall. intros j Hj. apply in_map_iff in Hj as (r & <- & Hr).
  rewrite Forall_forall in H2. specialize (H2 r Hr). unfold queued_before. rewrite <- (Hk p (or_introl eq_refl)), <- (Hk r (or_intror Hr)).
  unfold key_leb in H2. assert (snd p <> snd r) by (intros Heq; apply H3; rewrite Heq; apply in_map; exact Hr). lia.
Qed.
(** sorted lists with the same elements are equal *)
Lemma sorted_unique {A} (R : A -> A -> Prop) (Hirr : forall a, ~ R a a) (Hasym : forall a b, R a b -> R b a -> False) : forall l k,
  StronglySorted R l -> StronglySorted R k -> (forall x, In x l <-> In x k) -> l = k.
Proof.
  induction l as [|a l IH]; intros [|b k] Hl Hk Hin.
  - reflexivity.
  - exfalso. apply (Hin b). left; reflexivity.
  - exfalso. apply (Hin a). left; reflexivity.
  - inversion Hl as [|? ? L1 L2]; subst. inversion Hk as [|? ? K1 K2]; subst. rewrite Forall_forall in L2, K2.
    assert (a = b).
    { destruct (proj1 (Hin a) (or_introl eq_refl)) as [|Ha]; [auto|]. destruct (proj2 (Hin b) (or_introl eq_refl)) as [|Hb]; [auto|].
      exfalso. eapply Hasym; [apply L2; exact Hb|apply K2; exact Ha]. }
    subst b. f_equal. apply IH; [exact L1|exact K1|]. intros x. split; intros Hx.
    + destruct (proj1 (Hin x) (or_intror Hx)) as [->|]; [|assumption]. exfalso. eapply Hirr. apply L2. exact Hx.
    + destruct (proj2 (Hin x) (or_intror Hx)) as [->|]; [|assumption]. exfalso. eapply Hirr. apply K2. exact Hx.
Qed.
Lemma queue_unique s q q' : is_activation_queue s q -> is_activation_queue s q' -> q = q'.
Proof.
  intros [H1 H2] [H3 H4]. apply (sorted_unique (queued_before s)); try assumption.
  - unfold queued_before. intros a Ha. lia.
  - unfold queued_before. intros a b Ha Hb. lia.
  - intros x. rewrite H2, H4. reflexivity.
Qed.

(** ** activations *)
Lemma activate_loop ae : forall l t, NoDup l -> (forall i, In i l -> i < lenN (validators t)) ->
  exists vs, sfor l (fun i => mod_validator i (set_v_activation_epoch ae)) t = (Ok tt, set_validators vs t) /\ lenN vs = lenN (validators t)
    /\ forall i v, nthN (validators t) i = Some v -> nthN vs i = Some (if memN i l then set_v_activation_epoch ae v else v).
Proof.
  intros l t Hnd Hin.
  destruct (val_loop (fun i => mod_validator i (set_v_activation_epoch ae)) (fun _ => set_v_activation_epoch ae) t l (validators t) Hnd Hin) as (vs & H1 & H2 & H3 & H4).
  - intros i v c Hi Hc Hv Hv0. rewrite (mod_validator_ok _ i _ v) by (gs; exact Hv). reflexivity.
  - rewrite set_validators_id in H1. exists vs. split; [exact H1|]. split; [exact H2|]. intros i v Hv. destruct (memN i l) eqn:Hm.
    + apply H3; [apply memN_true; exact Hm|exact Hv].
    + rewrite H4; [exact Hv|]. apply memN_false. exact Hm.
Qed.
Lemma activate_loop_electra ae t :
  exists vs, sfor (rangeN (lenN (validators t))) (fun i =>
      let* v := rd (fun s => idx (validators s) i) in
      let* e := rd (fun s => Ok (is_eligible_for_activation s v)) in
      swhen e (mod_validator i (set_v_activation_epoch ae))) t = (Ok tt, set_validators vs t) /\ lenN vs = lenN (validators t)
    /\ forall i v, nthN (validators t) i = Some v -> nthN vs i = Some (if activation_ready t v then set_v_activation_epoch ae v else v).
Proof.
  destruct (val_loop (fun i =>
      let* v := rd (fun s => idx (validators s) i) in
      let* e := rd (fun s => Ok (is_eligible_for_activation s v)) in
      swhen e (mod_validator i (set_v_activation_epoch ae))) (fun _ v => if activation_ready t v then set_v_activation_epoch ae v else v) t (rangeN (lenN (validators t))) (validators t)
      (NoDup_rangeN _) (fun i Hi => proj1 (In_rangeN _ _) Hi)) as (vs & H1 & H2 & H3 & H4).
  - intros i v c Hi Hc Hv Hv0. rewrite (run_rd _ _ _ v) by (apply idx_ok; gs; exact Hv). rewrite (run_rd _ _ _ (activation_ready t v)) by reflexivity.
    destruct (activation_ready t v); cbn [swhen].
    + rewrite (mod_validator_ok _ i _ v) by (gs; exact Hv). reflexivity.
    + rewrite updN_id by exact Hv. reflexivity.
  - rewrite set_validators_id in H1. exists vs. split; [exact H1|]. split; [exact H2|]. intros i v Hv. apply H3; [|exact Hv]. apply In_rangeN. eapply nthN_some; eauto.
Qed.
Lemma efo_fields f t t' : exit_fields_only f t t' -> finalized_checkpoint t' = finalized_checkpoint t /\ slot t' = slot t.
Proof. intros (q & b & H & _). rewrite H. split; reflexivity. Qed.
Lemma reg_done_ready f t t' v v' : finalized_checkpoint t' = finalized_checkpoint t -> slot t' = slot t ->
  cp_epoch (finalized_checkpoint t) <= epoch_of E t -> slot_small t -> reg_done f t v v' ->
  activation_ready t' v' = activation_ready t v /\ (activation_ready t v = true -> v_activation_eligibility_epoch v' = v_activation_eligibility_epoch v).
Proof.
  intros Hf Hsl Hfin Hs (H1 & _ & _). pose proof (epoch_small E Hctx t Hs) as Hep.
  assert (Ha : v_activation_eligibility_epoch v' = v_activation_eligibility_epoch (queued f (epoch_of E t) v)) by (change (v_activation_eligibility_epoch (no_exit v') = v_activation_eligibility_epoch (no_exit (queued f (epoch_of E t) v))); congruence).
  assert (Hb : v_activation_epoch v' = v_activation_epoch (queued f (epoch_of E t) v)) by (change (v_activation_epoch (no_exit v') = v_activation_epoch (no_exit (queued f (epoch_of E t) v))); congruence).
  unfold activation_ready. rewrite Hf, Ha, Hb. unfold queued. destruct (enters_queue E f v) eqn:Hq; [|split; reflexivity]. gs.
  unfold enters_queue in Hq. apply andb_true_iff in Hq as [Hq _]. apply N.eqb_eq in Hq. rewrite Hq.
  assert (HFF : cp_epoch (finalized_checkpoint t) < FAR_FUTURE_EPOCH) by (unfold FAR_FUTURE_EPOCH; pows; lia).
  destruct (N.leb_spec (epoch_of E t + 1) (cp_epoch (finalized_checkpoint t))); [lia|]. destruct (N.leb_spec FAR_FUTURE_EPOCH (cp_epoch (finalized_checkpoint t))); [lia|].
  cbn [andb]. split; [reflexivity|discriminate].
Qed.
Lemma capped_sub o q i : In i (capped o q) -> In i q.
Proof. destruct o; cbn [capped]; [apply In_firstn|auto]. Qed.

Lemma registry_run f s : slot_small s -> state_shape E s -> room f (lenN (validators s)) s -> cp_epoch (finalized_checkpoint s) <= epoch_of E s ->
  exists s' q, process_registry_updates E f s = (Ok tt, s') /\ is_activation_queue s q /\ exit_fields_only f s s'
    /\ lenN (validators s') = lenN (validators s)
    /\ (forall i v, nthN (validators s) i = Some v -> exists v1, reg_done f s v v1 /\
          nthN (validators s') i = Some (if memN i (capped (activation_cap E f s) q) then set_v_activation_epoch (earliest_exit E s) v1 else v1))
    /\ (f <> Electra -> forall e, e <> FAR_FUTURE_EPOCH -> exits_at s' e <= N.max (exits_at s e) (churn_limit E s)).
Proof.
  intros Hs Hsh Hr Hfin. unfold process_registry_updates. rewrite (run_rd _ _ _ (epoch_of E s)) by (apply current_epoch_ok; exact Hctx).
  rewrite (run_rd _ _ _ (lenN (validators s))) by reflexivity.
  destruct (registry_loop f (rangeN (lenN (validators s))) s (NoDup_rangeN _) (fun i Hi => proj1 (In_rangeN _ _) Hi) Hs) as (t & A1 & A2 & A3 & A4 & A5 & A6 & A7).
  { rewrite lenN_rangeN. exact Hr. }
  rewrite (run_bind _ _ _ _ _ A1). clear A1. destruct (efo_fields _ _ _ A3) as [Hft Hslt]. destruct (sd_epoch s t A2) as [Hept _].
  assert (Hst : slot_small t) by (unfold slot_small in *; congruence).
  assert (A5' : forall i v, nthN (validators s) i = Some v -> exists v', nthN (validators t) i = Some v' /\ reg_done f s v v').
  { intros i v Hv. apply A5; [apply In_rangeN; eapply nthN_some; eauto|exact Hv]. }
  assert (Hee : earliest_exit E t = earliest_exit E s) by (unfold earliest_exit; rewrite Hept; reflexivity).
  assert (Hc : churn_limit E t = churn_limit E s) by (unfold churn_limit; rewrite (proj1 (same_duties_sum E s t A2)); reflexivity).
  assert (Hcap : match activation_cap E f s with Some n => activation_limit E f t = Ok n | None => f = Electra end).
  { destruct f; cbn [activation_cap activation_limit]; try reflexivity; unfold get_validator_activation_churn_limit; rewrite (churn_limit_ok E Hctx t), Hc; reflexivity. }
  (* the queue of the state after the first loop is the queue of [s] *)
  assert (Hrdy : forall i v v', nthN (validators s) i = Some v -> nthN (validators t) i = Some v' -> activation_ready t v' = activation_ready s v
     /\ (activation_ready s v = true -> v_activation_eligibility_epoch v' = v_activation_eligibility_epoch v)).
  { intros i v v' Hv Hv'. destruct (A5' i v Hv) as (w & W1 & W2). assert (w = v') by congruence. subst w. eapply reg_done_ready; eauto. }
  assert (Hq : is_activation_queue s (activation_queue t)).
  { destruct (activation_queue_spec t) as [Q1 Q2].
    assert (Hin : forall i, In i (activation_queue t) <-> exists v, nthN (validators s) i = Some v /\ activation_ready s v = true).
    { intros i. rewrite Q2. split.
      - intros (v' & Hv' & Hr'). destruct (nthN_lt (validators s) i) as [v Hv]; [rewrite <- A4; eapply nthN_some; eauto|]. exists v. split; [exact Hv|].
        rewrite <- (proj1 (Hrdy i v v' Hv Hv')). exact Hr'.
      - intros (v & Hv & Hr'). destruct (nthN_lt (validators t) i) as [v' Hv']; [rewrite A4; eapply nthN_some; eauto|]. exists v'. split; [exact Hv'|].
        rewrite (proj1 (Hrdy i v v' Hv Hv')). exact Hr'. }
    split; [|exact Hin]. assert (He : forall i, In i (activation_queue t) -> eligibility_of t i = eligibility_of s i).
    { intros i Hi. apply Hin in Hi as (v & Hv & Hr'). destruct (nthN_lt (validators t) i) as [v' Hv']; [rewrite A4; eapply nthN_some; eauto|].
      unfold eligibility_of. rewrite Hv, Hv'. apply (proj2 (Hrdy i v v' Hv Hv') Hr'). }
    revert Q1 He. generalize (activation_queue t). clear. induction l as [|x l IH]; intros H1 H2; [constructor|]. inversion H1 as [|? ? H3 H4]; subst.
    constructor; [apply IH; [exact H3|intros; apply H2; right; assumption]|]. rewrite Forall_forall in *. intros y Hy. specialize (H4 y Hy). unfold queued_before in *.
    rewrite <- (H2 x (or_introl eq_refl)), <- (H2 y (or_intror Hy)). exact H4. }
  assert (Hqin : forall i, In i (activation_queue t) -> i < lenN (validators t)).
  { intros i Hi. apply In_activation_queue in Hi as (v & Hv & _). eapply nthN_some; eauto. }
  assert (Hkeep : forall (l : list N) vs, (forall i v, nthN (validators t) i = Some v -> nthN vs i = Some (if memN i l then set_v_activation_epoch (earliest_exit E s) v else v)) ->
     forall e, lenN vs = lenN (validators t) -> exits_at (set_validators vs t) e = exits_at t e).
  { intros l vs Hvs e Hlen. unfold exits_at. gs. revert Hvs Hlen. generalize (earliest_exit E s). clear. intros ae Hvs Hlen.
    assert (Hm : map v_exit_epoch vs = map v_exit_epoch (validators t)).
    { apply nthN_ext. intros i. rewrite !nthN_map. destruct (nthN (validators t) i) as [v|] eqn:Hv.
      - rewrite (Hvs i v Hv). cbn. destruct (memN i l); reflexivity.
      - apply nthN_none in Hv. rewrite <- Hlen in Hv. apply nthN_none in Hv. rewrite Hv. reflexivity. }
    assert (Hf : forall a b : list Validator, map v_exit_epoch a = map v_exit_epoch b -> lenN (filter (fun v => v_exit_epoch v =? e) a) = lenN (filter (fun v => v_exit_epoch v =? e) b)).
    { induction a as [|x a IH]; intros [|y b] Hab; try discriminate; [reflexivity|]. cbn [map] in Hab. injection Hab as H1 H2. cbn [filter]. rewrite H1.
      destruct (v_exit_epoch y =? e); rewrite ?lenN_cons, (IH b H2); reflexivity. }
    apply Hf. exact Hm. }
  destruct (Fork_eq_dec f Electra) as [->|Hf].
  - rewrite (run_lift _ _ _ (earliest_exit E s)) by (rewrite <- Hept, <- Hee; apply earliest_ok; assumption).
    rewrite <- A4. destruct (activate_loop_electra (earliest_exit E s) t) as (vs & V1 & V2 & V3). exists (set_validators vs t), (activation_queue t).
    split; [exact V1|]. split; [exact Hq|]. split; [eapply efo_trans; [exact A3|apply efo_vals]|]. gs. split; [congruence|]. split; [|contradiction].
    intros i v Hv. destruct (A5' i v Hv) as (v1 & W1 & W2). exists v1. split; [exact W2|]. rewrite (V3 i v1 W1). cbn [activation_cap capped].
    destruct (activation_ready t v1) eqn:Hr1.
    + rewrite (proj2 (memN_true _ _)); [reflexivity|]. apply In_activation_queue. eauto.
    + rewrite (proj2 (memN_false _ _)); [reflexivity|]. intros Hi. apply In_activation_queue in Hi as (w & Hw & Hr2). rewrite ready_eq in Hr2. congruence.
  - assert (exists n, activation_cap E f s = Some n) as (n & Hn) by (destruct f; cbn [activation_cap]; eauto; contradiction).
    rewrite Hn in Hcap |- *. cbn [capped].
    destruct (activate_loop (earliest_exit E s) (firstN n (activation_queue t)) t) as (vs & V1 & V2 & V3).
    { apply NoDup_firstn, NoDup_activation_queue. }
    { intros i Hi. apply In_firstn in Hi. apply Hqin. exact Hi. }
    exists (set_validators vs t), (activation_queue t). split.
    { assert (Hgo : (let* queue := rd (fun s0 => Ok (activation_queue s0)) in let* ae := lift (compute_activation_exit_epoch E (epoch_of E s)) in
         let* limit := rd (activation_limit E f) in sfor (firstN limit queue) (fun i => mod_validator i (set_v_activation_epoch ae))) t = (Ok tt, set_validators vs t)).
      { rewrite (run_rd _ _ _ (activation_queue t)) by reflexivity.
        rewrite (run_lift _ _ _ (earliest_exit E s)) by (rewrite <- Hept, <- Hee; apply earliest_ok; assumption).
        rewrite (run_rd _ _ _ n) by exact Hcap. exact V1. }
      destruct f; try exact Hgo. contradiction. }
    split; [exact Hq|]. split; [eapply efo_trans; [exact A3|apply efo_vals]|]. gs. split; [congruence|]. split.
    + intros i v Hv. destruct (A5' i v Hv) as (v1 & W1 & W2). exists v1. split; [exact W2|]. apply V3. exact W1.
    + intros _ e Hne. rewrite (Hkeep (firstN n (activation_queue t)) vs V3 e V2). apply A7; assumption.
Qed.
End WithEnv.
