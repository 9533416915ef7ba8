(** * Proofs about rewards and penalties (proof file; no model definitions) *)
From Verif Require Import Base BaseLemmas Types Ctx Env Helpers HelpersAltair HelpersElectra Block Epoch Transition StLemmas Frame
  SpecCommon SpecShuffle SpecHelpers SpecOps SpecElectra SpecAtt SpecFinality SpecSlots SpecEpoch
  HelperProofs HelperProofs2 OpsProofs ElectraProofs SlashProofs AttProofs FrameProofs FinalityProofs EpochProofs.
From Coq Require Import Sorted Permutation.

Lemma rmap_nth {A B} (g : A -> res B) : forall l r, rmap g l = Ok r -> forall i y, nthN r i = Some y -> exists x, nthN l i = Some x /\ g x = Ok y.
Proof.
  induction l as [|x l IH]; intros r H i y Hy; cbn [rmap] in H.
  - apply Ok_inj in H. subst. discriminate.
  - apply rbind_ok_inv in H as (z & Hz & H). apply rbind_ok_inv in H as (zs & Hzs & H). apply Ok_inj in H. subst r. rewrite nthN_cons in Hy. rewrite nthN_cons.
    destruct (i =? 0); [injection Hy as <-; eauto|]. eapply IH; eauto.
Qed.
(** a fold that writes each listed index of a pair of vectors once *)
Lemma rfold_pair (step : list N * list N -> N -> res (list N * list N)) (g h : N -> N) (n : N) : forall l d0,
  NoDup l -> (forall i, In i l -> i < n) -> lenN (fst d0) = n -> lenN (snd d0) = n ->
  (forall i, In i l -> nthN (fst d0) i = Some 0 /\ nthN (snd d0) i = Some 0) ->
  (forall d i, In i l -> lenN (fst d) = n -> lenN (snd d) = n -> nthN (fst d) i = Some 0 -> nthN (snd d) i = Some 0 ->
     step d i = Ok (updN (fst d) i (g i), updN (snd d) i (h i))) ->
  exists d, rfold step l d0 = Ok d /\ lenN (fst d) = n /\ lenN (snd d) = n
    /\ (forall i, In i l -> nthN (fst d) i = Some (g i) /\ nthN (snd d) i = Some (h i))
    /\ (forall i, ~ In i l -> nthN (fst d) i = nthN (fst d0) i /\ nthN (snd d) i = nthN (snd d0) i).
Proof.
  induction l as [|i l IH]; intros d0 Hnd Hin L1 L2 Hz Hstep.
  - exists d0. split; [reflexivity|]. split; [exact L1|]. split; [exact L2|]. split; [intros i []|]. auto.
  - inversion Hnd as [|? ? Hx Hnd']; subst. destruct (Hz i (or_introl eq_refl)) as [Z1 Z2]. cbn [rfold].
    rewrite (Hstep d0 i (or_introl eq_refl) eq_refl L2 Z1 Z2). cbn [rbind].
    set (d1 := (updN (fst d0) i (g i), updN (snd d0) i (h i))).
    destruct (IH d1) as (d & D1 & D2 & D3 & D4 & D5).
    + exact Hnd'.
    + intros j Hj. apply Hin. right; exact Hj.
    + unfold d1. cbn [fst]. apply lenN_updN.
    + unfold d1. cbn [snd]. rewrite lenN_updN. exact L2.
    + intros j Hj. unfold d1. cbn [fst snd]. assert (i <> j) by (intros ->; contradiction). rewrite !nthN_updN_ne by assumption. apply Hz. right; exact Hj.
    + intros d j Hj. apply Hstep. right; exact Hj.
    + assert (Hi : i < lenN (fst d0)) by (apply Hin; left; reflexivity).
      exists d. split; [exact D1|]. split; [exact D2|]. split; [exact D3|]. split.
      * intros j [<-|Hj]; [|apply D4; exact Hj]. destruct (D5 i Hx) as [-> ->]. unfold d1. cbn [fst snd].
        rewrite !nthN_updN_eq by lia. auto.
      * intros j Hj. assert (i <> j) by (intros ->; apply Hj; left; reflexivity). destruct (D5 j) as [-> ->]; [intros H'; apply Hj; right; exact H'|].
        unfold d1. cbn [fst snd]. rewrite !nthN_updN_ne by assumption. auto.
Qed.
Lemma rfold_single (step : list N -> N -> res (list N)) (h : N -> N) (n : N) : forall l d0,
  NoDup l -> (forall i, In i l -> i < n) -> lenN d0 = n -> (forall i, In i l -> nthN d0 i = Some 0) ->
  (forall d i, In i l -> lenN d = n -> nthN d i = Some 0 -> step d i = Ok (updN d i (h i))) ->
  exists d, rfold step l d0 = Ok d /\ lenN d = n /\ (forall i, In i l -> nthN d i = Some (h i)) /\ (forall i, ~ In i l -> nthN d i = nthN d0 i).
Proof.
  induction l as [|i l IH]; intros d0 Hnd Hin L2 Hz Hstep.
  - exists d0. split; [reflexivity|]. split; [exact L2|]. split; [intros i []|]. auto.
  - inversion Hnd as [|? ? Hx Hnd']; subst. cbn [rfold]. rewrite (Hstep d0 i (or_introl eq_refl) eq_refl (Hz i (or_introl eq_refl))). cbn [rbind].
    destruct (IH (updN d0 i (h i))) as (d & D1 & D3 & D4 & D5).
    + exact Hnd'.
    + intros j Hj. apply Hin. right; exact Hj.
    + apply lenN_updN.
    + intros j Hj. assert (i <> j) by (intros ->; contradiction). rewrite nthN_updN_ne by assumption. apply Hz. right; exact Hj.
    + intros d j Hj. apply Hstep. right; exact Hj.
    + assert (Hi : i < lenN d0) by (apply Hin; left; reflexivity).
      exists d. split; [exact D1|]. split; [exact D3|]. split.
      * intros j [<-|Hj]; [|apply D4; exact Hj]. rewrite (D5 i Hx). apply nthN_updN_eq. exact Hi.
      * intros j Hj. assert (i <> j) by (intros ->; apply Hj; left; reflexivity). rewrite (D5 j) by (intros H'; apply Hj; right; exact H').
        apply nthN_updN_ne. assumption.
Qed.

Section WithEnv.
Variable E : Env.
Hypothesis Hctx : ctx_sane E.
Hypothesis Hatt : ctx_sane_att E.

Lemma bump_ok l i a x : nthN l i = Some a -> a + x < U64 -> bump E l i x = Ok (updN l i (a + x)).
Proof. intros H Hx. unfold bump. apply idx_ok in H. rewrite H. cbn [rbind]. unfold add. rewrite uadd_ok by exact Hx. reflexivity. Qed.
Lemma apply_deltas_run s d (g h : N -> N) : let n := lenN (validators s) in lenN (balances s) = n ->
  (forall i, i < n -> nthN (fst d) i = Some (g i) /\ nthN (snd d) i = Some (h i)) ->
  (forall i b, nthN (balances s) i = Some b -> b + g i < U64) ->
  exists bs, apply_deltas E n d s = (Ok tt, set_balances bs s) /\ lenN bs = n
    /\ forall i b, nthN (balances s) i = Some b -> nthN bs i = Some (b + g i - h i).
Proof.
  intros n Hlen Hd Hb.
  destruct (bal_loop (fun i => let* r := lift (idx (fst d) i) in increase_balance E i r ;; let* p := lift (idx (snd d) i) in decrease_balance E i p)
    (fun i b => b + g i - h i) s (rangeN n) (balances s) (NoDup_rangeN _)) as (bs & H1 & H2 & H3 & _).
  - intros i Hi. rewrite Hlen. apply In_rangeN. exact Hi.
  - intros i b c Hin Hc Hi Hi0. apply In_rangeN in Hin. destruct (Hd i Hin) as [D1 D2].
    rewrite (run_lift _ _ _ (g i)) by (apply idx_ok; exact D1).
    rewrite (run_bind _ _ _ _ _ (increase_balance_ok E (set_balances c s) i (g i) b Hi (Hb i b Hi0))).
    rewrite (run_lift _ _ _ (h i)) by (apply idx_ok; exact D2).
    rewrite (decrease_balance_ok E _ i (h i) (b + g i)).
    + gs. rewrite updN_updN. reflexivity.
    + gs. apply nthN_updN_eq. eapply nthN_some; eauto.
  - rewrite set_balances_id in H1. exists bs. split; [exact H1|]. split; [congruence|]. intros i b Hi. apply H3; [|exact Hi].
    apply In_rangeN. rewrite <- Hlen. eapply nthN_some; eauto.
Qed.

Definition reward_ready (s : BeaconState) : Prop :=
  epoch_of E s <> 0 /\ lenN (balances s) = lenN (validators s) /\ lenN (previous_epoch_participation s) = lenN (validators s)
  /\ lenN (inactivity_scores s) = lenN (validators s) /\ cp_epoch (finalized_checkpoint s) <= prev_epoch_of E s /\ active_balance_fits E s.

Lemma eligible_lt s i : eligible_at E s i = true -> i < lenN (validators s).
Proof. unfold eligible_at. destruct (nthN (validators s) i) eqn:H; [intros _; eapply nthN_some; eauto|discriminate]. Qed.
Lemma voted_sum s k : stake_fits s -> get_total_balance E s (filter (voted_flag E s k) (rangeN (lenN (validators s)))) = Ok (flag_stake E s k).
Proof.
  intros Hst. unfold flag_stake. set (l := filter _ _).
  assert (Hr : forall i, In i l -> i < lenN (validators s)) by (intros i Hi; apply filter_In in Hi as [Hi _]; apply In_rangeN; exact Hi).
  pose proof (effective_sum_le s l (NoDup_filter _ (NoDup_rangeN _)) Hr) as Hle. unfold stake_fits in Hst.
  rewrite get_total_balance_ok by exact Hr. destruct (N.ltb_spec (effective_sum s l) U64) as [_|Hc]; [reflexivity|pows; lia].
Qed.
Lemma total_active_ok s : active_balance_fits E s -> get_total_active_balance E s = Ok (active_balance E s).
Proof.
  intros Hfit. rewrite (get_total_active_balance_ok E s Hctx). destruct (N.ltb_spec (effective_sum s (active_set s (epoch_of E s))) U64) as [_|Hge]; [reflexivity|].
  unfold active_balance_fits in Hfit. pows; lia.
Qed.
Lemma FLAGS k w : In (k, w) FLAG_WEIGHTS -> w = flag_weight k /\ k < 3.
Proof. intros [H|[H|[H|[]]]]; injection H as <- <-; split; reflexivity. Qed.
Lemma flag_deltas_run f s k : reward_ready s -> stake_fits s -> rewards_fit E f s -> k < 3 ->
  exists d, get_flag_index_deltas E s k (flag_weight k) = Ok d
    /\ forall i, i < lenN (validators s) -> nthN (fst d) i = Some (flag_gain E s k i) /\ nthN (snd d) i = Some (flag_loss E s k i).
Proof.
  intros (He & Hlb & Hlp & Hls & Hfin & Hfit) Hst (Hr1 & _ & Hr2 & _ & Hr4) Hk. unfold get_flag_index_deltas. pose proof (inc_nz E Hctx) as Hi.
  rewrite previous_epoch_ok by exact Hctx. cbn [rbind]. rewrite participating_ok by assumption. cbn [rbind]. rewrite voted_sum by exact Hst. cbn [rbind].
  rewrite udiv_ok by exact Hi. cbn [rbind]. rewrite total_active_ok by assumption. cbn [rbind]. rewrite udiv_ok by exact Hi. cbn [rbind].
  rewrite leak_ok by assumption. cbn [rbind]. rewrite eligible_ok by exact Hctx. cbn [rbind].
  set (n := lenN (validators s)). set (PI := flag_stake E s k / EFFECTIVE_BALANCE_INCREMENT E). set (AI := active_balance E s / EFFECTIVE_BALANCE_INCREMENT E) in *.
  assert (HPI : 1 <= PI) by (unfold PI, flag_stake; apply N.div_le_lower_bound; [exact Hi|]; rewrite N.mul_1_r; apply N.le_max_r).
  assert (HAI : 1 <= AI) by (unfold AI, active_balance; apply N.div_le_lower_bound; [exact Hi|]; rewrite N.mul_1_r; apply N.le_max_r).
  assert (Hfw : 1 <= flag_weight k <= 64). { clear - Hk. assert (k = 0 \/ k = 1 \/ k = 2) as [->|[-> | ->]] by lia; vm_compute; split; discriminate. }
  destruct (rfold_pair (flag_delta_step E s k (flag_weight k) (filter (voted_flag E s k) (rangeN n)) PI AI (negb (leaking E s)))
    (flag_gain E s k) (flag_loss E s k) n (indices_where (eligible_v E s) (validators s)) (repeatN 0 n, repeatN 0 n)) as (d & D1 & D2 & D3 & D4 & D5).
  - apply NoDup_indices_where.
  - intros i Hin. apply In_eligible in Hin. apply eligible_lt in Hin. exact Hin.
  - apply lenN_repeatN.
  - apply lenN_repeatN.
  - intros i Hin. apply In_eligible, eligible_lt in Hin. cbn [fst snd]. rewrite nthN_repeatN by exact Hin. auto.
  - intros d i Hin L1 L2 Z1 Z2. apply In_eligible in Hin. pose proof (eligible_lt _ _ Hin) as Hlt. specialize (Hr2 i k Hlt Hk). fold PI in Hr2.
    unfold flag_delta_step. set (br := base_reward E s i) in *.
    assert (Hb : br < U64) by (pows; nia). rewrite base_reward_ok by (assumption || exact Hb). cbn [rbind]. fold br. rewrite memN_voted.
    unfold flag_gain, flag_loss. rewrite Hin. cbn [andb]. destruct (voted_flag E s k i); cbn [andb negb].
    + rewrite (updN_id (snd d)) by exact Z2. destruct (leaking E s); cbn [negb].
      * rewrite updN_id by exact Z1. destruct d; reflexivity.
      * fold br PI AI. unfold mul. rewrite umul_ok by (pows; nia). cbn [rbind]. rewrite umul_ok by (pows; lia). cbn [rbind].
        unfold WEIGHT_DENOMINATOR. rewrite umul_ok by (pows; lia). cbn [rbind]. rewrite udiv_ok by lia. cbn [rbind].
        rewrite (bump_ok _ _ 0) by (exact Z1 || (rewrite N.add_0_l; apply N.div_lt_upper_bound; [lia|]; pows; nia)). cbn [rbind]. rewrite N.add_0_l. reflexivity.
    + rewrite (updN_id (fst d)) by exact Z1. unfold TIMELY_HEAD_FLAG_INDEX. destruct (k =? 2); cbn [negb].
      * rewrite updN_id by exact Z2. destruct d; reflexivity.
      * unfold mul, WEIGHT_DENOMINATOR. rewrite umul_ok by (pows; nia). cbn [rbind]. rewrite udiv_ok by lia. cbn [rbind].
        rewrite (bump_ok _ _ 0) by (exact Z2 || (rewrite N.add_0_l; apply N.div_lt_upper_bound; [lia|]; pows; nia)). cbn [rbind]. rewrite N.add_0_l. reflexivity.
  - exists d. split; [exact D1|]. intros i Hlt. destruct (eligible_at E s i) eqn:Hel.
    + apply D4. apply In_eligible. exact Hel.
    + destruct (D5 i) as [-> ->]; [intros Hin; apply In_eligible in Hin; congruence|]. cbn [fst snd]. rewrite nthN_repeatN by exact Hlt.
      unfold flag_gain, flag_loss. rewrite Hel. auto.
Qed.
Lemma quotient_eq f : inactivity_quotient E f = leak_quotient E f. Proof. destruct f; reflexivity. Qed.
Lemma inactivity_deltas_run f s : reward_ready s -> rewards_fit E f s ->
  exists d, get_inactivity_penalty_deltas_altair E f s = Ok d
    /\ forall i, i < lenN (validators s) -> nthN (fst d) i = Some 0 /\ nthN (snd d) i = Some (inactivity_loss E f s i).
Proof.
  intros (He & Hlb & Hlp & Hls & Hfin & Hfit) (_ & Hq & _ & Hr3 & _). unfold get_inactivity_penalty_deltas_altair.
  rewrite previous_epoch_ok by exact Hctx. cbn [rbind]. rewrite participating_ok by assumption. cbn [rbind]. rewrite eligible_ok by exact Hctx. cbn [rbind].
  set (n := lenN (validators s)).
  match goal with |- context [rfold ?st _ _] => destruct (rfold_single st (inactivity_loss E f s) n (indices_where (eligible_v E s) (validators s)) (repeatN 0 n)) as (d & D1 & D3 & D4 & D5) end.
  - apply NoDup_indices_where.
  - intros i Hin. apply In_eligible in Hin. apply eligible_lt in Hin. exact Hin.
  - apply lenN_repeatN.
  - intros i Hin. apply In_eligible, eligible_lt in Hin. apply nthN_repeatN. exact Hin.
  - intros d i Hin L1 Z1. apply In_eligible in Hin. pose proof (eligible_lt _ _ Hin) as Hlt. specialize (Hr3 i Hlt). unfold n. rewrite memN_voted. unfold TIMELY_TARGET_FLAG_INDEX.
    unfold inactivity_loss. rewrite Hin. cbn [andb]. destruct (voted_flag E s 1 i); cbn [negb]; [rewrite updN_id by exact Z1; reflexivity|].
    destruct (nthN_lt (validators s) i Hlt) as [v Hv]. destruct (nthN_lt (inactivity_scores s) i) as [sc Hsc]; [rewrite Hls; exact Hlt|].
    rewrite Hsc in *. rewrite (effective_balance_of_some s i v Hv) in *. apply idx_ok in Hv, Hsc. rewrite Hv. cbn [rbind]. rewrite Hsc. cbn [rbind].
    unfold mul. rewrite umul_ok by (pows; lia). cbn [rbind]. rewrite quotient_eq, umul_ok by (pows; lia). cbn [rbind]. rewrite udiv_ok by lia. cbn [rbind].
    rewrite (bump_ok _ _ 0) by (exact Z1 || (rewrite N.add_0_l; apply N.div_lt_upper_bound; [lia|]; pows; nia)). rewrite N.add_0_l. reflexivity.
  - rewrite D1. cbn [rbind]. eexists. split; [reflexivity|]. cbn [fst snd]. intros i Hlt. split; [apply nthN_repeatN; exact Hlt|]. destruct (eligible_at E s i) eqn:Hel.
    + apply D4. apply In_eligible. exact Hel.
    + rewrite D5 by (intros Hin; apply In_eligible in Hin; congruence). rewrite nthN_repeatN by exact Hlt. unfold inactivity_loss. rewrite Hel. reflexivity.
Qed.
Lemma rewards_run f s : f <> Phase0 -> reward_ready s -> stake_fits s -> rewards_fit E f s ->
  exists bs, process_rewards_and_penalties E f s = (Ok tt, set_balances bs s) /\ lenN bs = lenN (balances s)
    /\ forall i b, nthN (balances s) i = Some b -> nthN bs i = Some (balance_after_rewards E f s i b).
Proof.
  intros Hf Hready Hst Hfitr. pose proof Hready as (He & Hlb & _). unfold process_rewards_and_penalties.
  rewrite (run_rd _ _ _ (epoch_of E s)) by (apply current_epoch_ok; exact Hctx). unfold GENESIS_EPOCH. destruct (N.eqb_spec (epoch_of E s) 0); [contradiction|].
  destruct (flag_deltas_run f s 0 Hready Hst Hfitr ltac:(lia)) as (d0 & A0 & B0).
  destruct (flag_deltas_run f s 1 Hready Hst Hfitr ltac:(lia)) as (d1 & A1 & B1).
  destruct (flag_deltas_run f s 2 Hready Hst Hfitr ltac:(lia)) as (d2 & A2 & B2).
  destruct (inactivity_deltas_run f s Hready Hfitr) as (d3 & A3 & B3).
  rewrite (run_rd _ _ _ [d0; d1; d2; d3]).
  2:{ assert (Hgo : (let! ds := rmap (fun fw => get_flag_index_deltas E s (fst fw) (snd fw)) FLAG_WEIGHTS in
        let! i := get_inactivity_penalty_deltas_altair E f s in Ok (ds ++ [i])) = Ok [d0; d1; d2; d3]).
      { unfold FLAG_WEIGHTS. cbn [rmap fst snd]. change (flag_weight 0) with 14 in A0. change (flag_weight 1) with 26 in A1. change (flag_weight 2) with 14 in A2. rewrite A0. cbn [rbind]. rewrite A1. cbn [rbind]. rewrite A2. cbn [rbind]. rewrite A3. reflexivity. }
      destruct f; try exact Hgo. contradiction. }
  rewrite (run_rd _ _ _ (lenN (validators s))) by reflexivity. destruct Hfitr as (_ & _ & _ & _ & Hsum).
  set (g := flag_gain E s) in *. set (h := flag_loss E s) in *.
  destruct (apply_deltas_run s d0 (g 0) (h 0) Hlb B0) as (b0 & R0 & L0 & P0).
  { intros i b Hb. specialize (Hsum i b Hb). pows; lia. }
  rewrite sfor_cons, (run_bind _ _ _ _ _ R0).
  assert (V : forall bs, lenN (validators (set_balances bs s)) = lenN (validators s)) by reflexivity.
  destruct (apply_deltas_run (set_balances b0 s) d1 (g 1) (h 1) L0 B1) as (b1 & R1 & L1 & P1).
  { gs. intros i b Hb. destruct (nthN_lt (balances s) i) as [b' Hb']; [rewrite Hlb, <- L0; eapply nthN_some; eauto|]. rewrite (P0 i b' Hb') in Hb. injection Hb as <-.
    specialize (Hsum i b' Hb'). pows; lia. }
  gsh R1. rewrite sfor_cons, (run_bind _ _ _ _ _ R1).
  destruct (apply_deltas_run (set_balances b1 s) d2 (g 2) (h 2) L1 B2) as (b2 & R2 & L2 & P2).
  { gs. intros i b Hb. gsh L1; gsh P1; destruct (nthN_lt (balances s) i) as [b' Hb']; [rewrite Hlb, <- L1; eapply nthN_some; eauto|].
    rewrite (P1 i _ (P0 i b' Hb')) in Hb. injection Hb as <-. specialize (Hsum i b' Hb'). pows; lia. }
  gsh R2. rewrite sfor_cons, (run_bind _ _ _ _ _ R2).
  destruct (apply_deltas_run (set_balances b2 s) d3 (fun _ => 0) (inactivity_loss E f s) L2 B3) as (b3 & R3 & L3 & P3).
  { gs. intros i b Hb. gsh L1; gsh P1; gsh L2; gsh P2; destruct (nthN_lt (balances s) i) as [b' Hb']; [rewrite Hlb, <- L2; eapply nthN_some; eauto|].
    rewrite (P2 i _ (P1 i _ (P0 i b' Hb'))) in Hb. injection Hb as <-. specialize (Hsum i b' Hb'). pows; lia. }
  gsh R3. rewrite sfor_cons, (run_bind _ _ _ _ _ R3). exists b3. split; [reflexivity|]. split; [rewrite L3, Hlb; reflexivity|].
  intros i b Hb. rewrite (P3 i _ (P2 i _ (P1 i _ (P0 i b Hb)))). unfold balance_after_rewards. fold g h. rewrite N.add_0_r. reflexivity.
Qed.

(** ** who is left alone *)
Hypothesis Hwf : hash_wf (hash E).
Definition zero_at (i : N) (l : list N) : Prop := forall x, nthN l i = Some x -> x = 0.
Lemma zero_repeat i n : zero_at i (repeatN 0 n).
Proof. intros x H. apply nthN_In in H. unfold repeatN in H. apply repeat_spec in H. exact H. Qed.
Lemma zero_bump i j l x l' : i <> j -> zero_at i l -> bump E l j x = Ok l' -> zero_at i l'.
Proof. intros Hij Hz H. unfold bump in H. rinv H. intros y Hy. subst l'. rewrite nthN_updN_ne in Hy by congruence. apply Hz. exact Hy. Qed.
Lemma rfold_keep {A B} (P : A -> Prop) (step : A -> B -> res A) : forall l a b, rfold step l a = Ok b -> P a ->
  (forall d j d', In j l -> P d -> step d j = Ok d' -> P d') -> P b.
Proof.
  induction l as [|x l IH]; intros a b H Ha Hs; cbn [rfold] in H; [apply Ok_inj in H; subst; exact Ha|].
  apply rbind_ok_inv in H as (c & Hc & H). apply (IH c b H).
  - eapply Hs; [left; reflexivity|exact Ha|exact Hc].
  - intros d j d' Hj. apply Hs. right; exact Hj.
Qed.
Lemma not_eligible_in s i j : eligible_at E s i = false -> In j (indices_where (eligible_v E s) (validators s)) -> i <> j.
Proof. intros H Hj ->. apply In_eligible in Hj. congruence. Qed.
Definition zeros (i : N) (d : list N * list N) : Prop := zero_at i (fst d) /\ zero_at i (snd d).
Lemma flag_zero s k w i d : eligible_at E s i = false -> get_flag_index_deltas E s k w = Ok d -> zeros i d.
Proof.
  intros He H. unfold get_flag_index_deltas in H. apply rbind_ok_inv in H as (prev & _ & H). apply rbind_ok_inv in H as (pp & _ & H).
  apply rbind_ok_inv in H as (pb & _ & H). apply rbind_ok_inv in H as (pi & _ & H). apply rbind_ok_inv in H as (ab & _ & H). apply rbind_ok_inv in H as (ai & _ & H).
  apply rbind_ok_inv in H as (lk & _ & H). rewrite eligible_ok in H by exact Hctx. cbn [rbind] in H.
  apply (rfold_keep (zeros i) _ _ _ _ H); [split; apply zero_repeat|]. intros x j y Hj [Hx1 Hx2] Hy. pose proof (not_eligible_in _ _ _ He Hj) as Hij.
  unfold flag_delta_step in Hy. apply rbind_ok_inv in Hy as (base & _ & Hy). destruct (memN j pp).
  - destruct (negb lk); [|apply Ok_inj in Hy; subst; split; assumption]. apply rbind_ok_inv in Hy as (a & _ & Hy). apply rbind_ok_inv in Hy as (nm & _ & Hy).
    apply rbind_ok_inv in Hy as (dn & _ & Hy). apply rbind_ok_inv in Hy as (q & _ & Hy). apply rbind_ok_inv in Hy as (r & Hr & Hy). apply Ok_inj in Hy. subst y.
    split; [exact (zero_bump _ _ _ _ _ Hij Hx1 Hr)|exact Hx2].
  - destruct (negb (k =? TIMELY_HEAD_FLAG_INDEX)); [|apply Ok_inj in Hy; subst; split; assumption]. apply rbind_ok_inv in Hy as (a & _ & Hy).
    apply rbind_ok_inv in Hy as (q & _ & Hy). apply rbind_ok_inv in Hy as (r & Hr & Hy). apply Ok_inj in Hy. subst y. split; [exact Hx1|exact (zero_bump _ _ _ _ _ Hij Hx2 Hr)].
Qed.
Lemma inactivity_zero f s i d : eligible_at E s i = false -> get_inactivity_penalty_deltas_altair E f s = Ok d -> zeros i d.
Proof.
  intros He H. unfold get_inactivity_penalty_deltas_altair in H. apply rbind_ok_inv in H as (prev & _ & H). apply rbind_ok_inv in H as (tg & _ & H).
  rewrite eligible_ok in H by exact Hctx. cbn [rbind] in H. apply rbind_ok_inv in H as (p & Hp & H). apply Ok_inj in H. subst d.
  split; [apply zero_repeat|]. cbn [snd]. apply (rfold_keep (zero_at i) _ _ _ _ Hp); [apply zero_repeat|]. intros x j y Hj Hx Hy. pose proof (not_eligible_in _ _ _ He Hj) as Hij.
  destruct (memN j tg); [apply Ok_inj in Hy; subst; exact Hx|]. apply rbind_ok_inv in Hy as (v & _ & Hy). apply rbind_ok_inv in Hy as (sc & _ & Hy).
  apply rbind_ok_inv in Hy as (nm & _ & Hy). apply rbind_ok_inv in Hy as (dn & _ & Hy). apply rbind_ok_inv in Hy as (q & _ & Hy). eapply zero_bump; eauto.
Qed.
Lemma component_zero s l i d : eligible_at E s i = false -> get_attestation_component_deltas E s l = Ok d -> zeros i d.
Proof.
  intros He H. unfold get_attestation_component_deltas in H. apply rbind_ok_inv in H as (t & _ & H). apply rbind_ok_inv in H as (at_ & _ & H).
  apply rbind_ok_inv in H as (ab & _ & H). rewrite eligible_ok in H by exact Hctx. cbn [rbind] in H.
  apply (rfold_keep (zeros i) _ _ _ _ H); [split; apply zero_repeat|]. intros x j y Hj [Hx1 Hx2] Hy. pose proof (not_eligible_in _ _ _ He Hj) as Hij.
  unfold component_step in Hy. destruct (memN j at_).
  - apply rbind_ok_inv in Hy as (lk & _ & Hy). apply rbind_ok_inv in Hy as (base & _ & Hy). destruct lk.
    + apply rbind_ok_inv in Hy as (r & Hr & Hy). apply Ok_inj in Hy. subst y. split; [exact (zero_bump _ _ _ _ _ Hij Hx1 Hr)|exact Hx2].
    + apply rbind_ok_inv in Hy as (a & _ & Hy). apply rbind_ok_inv in Hy as (nm & _ & Hy). apply rbind_ok_inv in Hy as (dn & _ & Hy). apply rbind_ok_inv in Hy as (q & _ & Hy).
      apply rbind_ok_inv in Hy as (r & Hr & Hy). apply Ok_inj in Hy. subst y. split; [exact (zero_bump _ _ _ _ _ Hij Hx1 Hr)|exact Hx2].
  - apply rbind_ok_inv in Hy as (base & _ & Hy). apply rbind_ok_inv in Hy as (r & Hr & Hy). apply Ok_inj in Hy. subst y. split; [exact Hx1|exact (zero_bump _ _ _ _ _ Hij Hx2 Hr)].
Qed.
Lemma min_delay_in : forall t a, In (min_delay a t) (a :: t).
Proof.
  induction t as [|b t IH]; intros a; [left; reflexivity|]. cbn [min_delay]. destruct (pa_inclusion_delay b <? pa_inclusion_delay a).
  - right. apply IH.
  - destruct (IH a) as [<-|H]; [left; reflexivity|right; right; exact H].
Qed.
Lemma inclusion_zero s i d : state_shape E s -> epoch_of E s <> 0 -> votes_recorded E Phase0 s -> previous_votes_in_epoch E s -> ~ includes_votes s i ->
  eligible_at E s i = false -> get_inclusion_delay_deltas E s = Ok d -> zeros i d.
Proof.
  intros Hsh He0 Hrec Hprev Hinc He H. unfold get_inclusion_delay_deltas in H. rewrite previous_epoch_ok in H by exact Hctx. cbn [rbind] in H.
  unfold get_matching_source_attestations in H. rewrite previous_epoch_ok, current_epoch_ok in H by exact Hctx. cbn [rbind] in H. rewrite N.eqb_refl in H. cbn [negb andb] in H.
  assert (Hpc : (prev_epoch_of E s =? epoch_of E s) = false) by (apply N.eqb_neq; unfold prev_epoch_of; lia). rewrite Hpc in H. cbn [rbind] in H.
  destruct (unslashed_attesting E Hctx Hwf s (previous_epoch_attestations s) Hsh) as (is & His & _ & Hin).
  { intros a Ha. apply Hrec. apply in_or_app. left; exact Ha. }
  rewrite His in H. cbn [rbind] in H. apply rbind_ok_inv in H as (r & Hr & H). apply Ok_inj in H. subst d. split; [|apply zero_repeat]. cbn [fst].
  apply (rfold_keep (zero_at i) _ _ _ _ Hr); [apply zero_repeat|]. intros x j y Hj Hx Hy.
  assert (Hij : i <> j).
  { intros ->. apply Hin in Hj as (v & Hv & _ & a & com & k & Ha & Hcom & _ & Hk). unfold eligible_at in He. rewrite Hv in He. unfold eligible_v in He.
    apply orb_false_iff in He as [He _]. destruct Hcom as (seed & _ & _ & Hc). pose proof (nthN_some _ _ _ Hk) as Hlt. rewrite Hc in Hk by exact Hlt.
    apply nthN_In in Hk. apply In_active_set in Hk as (w & Hw & Hact). rewrite (Hprev a Ha) in Hact. congruence. }
  unfold inclusion_step in Hy. apply rbind_ok_inv in Hy as (a & Ha & Hy). apply rbind_ok_inv in Hy as (pr & _ & Hy). apply rbind_ok_inv in Hy as (r1 & Hr1 & Hy).
  apply rbind_ok_inv in Hy as (base & _ & Hy). apply rbind_ok_inv in Hy as (m & _ & Hy). apply rbind_ok_inv in Hy as (q & _ & Hy).
  eapply zero_bump; [exact Hij| |exact Hy]. eapply zero_bump; [|exact Hx|exact Hr1].
  unfold earliest_attestation in Ha. apply rbind_ok_inv in Ha as (mine & Hmine & Ha). destruct mine as [|a0 t]; [discriminate|]. apply Ok_inj in Ha.
  pose proof (min_delay_in t a0) as Hmd. rewrite Ha in Hmd. apply (In_rfilter _ _ _ Hmine) in Hmd as [Hmd _]. intros ->. apply Hinc. exists a. auto.
Qed.
Lemma inactivity_zero0 s i d : eligible_at E s i = false -> get_inactivity_penalty_deltas_phase0 E s = Ok d -> zeros i d.
Proof.
  intros He H. unfold get_inactivity_penalty_deltas_phase0 in H. apply rbind_ok_inv in H as (prev & _ & H). apply rbind_ok_inv in H as (lk & _ & H).
  destruct lk; [|apply Ok_inj in H; subst; split; apply zero_repeat]. apply rbind_ok_inv in H as (l & _ & H). apply rbind_ok_inv in H as (tg & _ & H).
  rewrite eligible_ok in H by exact Hctx. cbn [rbind] in H. apply rbind_ok_inv in H as (p & Hp & H). apply Ok_inj in H. subst d.
  split; [apply zero_repeat|]. cbn [snd]. apply (rfold_keep (zero_at i) _ _ _ _ Hp); [apply zero_repeat|]. intros x j y Hj Hx Hy. pose proof (not_eligible_in _ _ _ He Hj) as Hij.
  unfold inactivity_step_phase0 in Hy. apply rbind_ok_inv in Hy as (b0 & _ & Hy). apply rbind_ok_inv in Hy as (pr & _ & Hy). apply rbind_ok_inv in Hy as (b4 & _ & Hy).
  apply rbind_ok_inv in Hy as (z & _ & Hy). apply rbind_ok_inv in Hy as (p1 & Hp1 & Hy). assert (Hz : zero_at i p1) by (eapply zero_bump; eauto).
  destruct (memN j tg); [apply Ok_inj in Hy; subst; exact Hz|]. apply rbind_ok_inv in Hy as (v & _ & Hy). apply rbind_ok_inv in Hy as (dl & _ & Hy).
  apply rbind_ok_inv in Hy as (nm & _ & Hy). apply rbind_ok_inv in Hy as (q & _ & Hy). eapply zero_bump; eauto.
Qed.
Lemma sum4_zero n a b c d r i : sum4 E n a b c d = Ok r -> zero_at i a -> zero_at i b -> zero_at i c -> zero_at i d -> zero_at i r.
Proof.
  intros H Ha Hb Hc Hd x Hx. unfold sum4 in H. destruct (rmap_nth _ _ _ H i x Hx) as (j & Hj & Hg). 
  assert (j = i). { pose proof (nthN_some _ _ _ Hj) as Hlt. rewrite lenN_rangeN in Hlt. rewrite nthN_rangeN in Hj by exact Hlt. congruence. } subst j.
  apply rbind_ok_inv in Hg as (x1 & H1 & Hg). apply rbind_ok_inv in Hg as (x2 & H2 & Hg). apply rbind_ok_inv in Hg as (x3 & H3 & Hg). apply rbind_ok_inv in Hg as (x4 & H4 & Hg).
  apply idx_ok in H1, H2, H3, H4. apply Ha in H1. apply Hb in H2. apply Hc in H3. apply Hd in H4. subst. cbn in Hg.
  unfold add in Hg. rewrite !uadd_ok in Hg by (vm_compute; reflexivity). cbn [rbind] in Hg. rewrite uadd_ok in Hg by (vm_compute; reflexivity). cbn [rbind] in Hg.
  rewrite uadd_ok in Hg by (vm_compute; reflexivity). apply Ok_inj in Hg. subst. reflexivity.
Qed.
Definition keeps (i b : N) (m : St BeaconState unit) : Prop := pres (fun t t' => nthN (balances t) i = Some b -> nthN (balances t') i = Some b) m.
Lemma increase_keeps i b j x : b < U64 -> (i = j -> x = 0) -> keeps i b (increase_balance E j x).
Proof.
  intros Hb Hx s Hs. unfold increase_balance, sbind, rd, md. destruct (N.eq_dec i j) as [<-|Hij].
  - rewrite (Hx eq_refl). rewrite (proj2 (idx_ok _ _ _) Hs). cbn [rbind]. unfold add. rewrite uadd_ok by lia. cbn [snd]. gs. rewrite N.add_0_r.
    apply nthN_updN_eq. eapply nthN_some; eauto.
  - destruct (idx (balances s) j) as [c| | |]; cbn [rbind]; try exact Hs. destruct (add E c x); cbn [snd]; try exact Hs. gs. rewrite nthN_updN_ne by congruence. exact Hs.
Qed.
Lemma decrease_keeps i b j x : (i = j -> x = 0) -> keeps i b (decrease_balance E j x).
Proof.
  intros Hx s Hs. unfold decrease_balance, sbind, rd, md. destruct (N.eq_dec i j) as [<-|Hij].
  - rewrite (Hx eq_refl). rewrite (proj2 (idx_ok _ _ _) Hs). cbn [rbind]. destruct (N.ltb_spec b 0); [lia|]. unfold sub. rewrite usub_ok by lia. cbn [snd]. gs. rewrite N.sub_0_r.
    apply nthN_updN_eq. eapply nthN_some; eauto.
  - destruct (idx (balances s) j) as [c| | |]; cbn [rbind]; try exact Hs. destruct (if c <? x then Ok 0 else sub E c x); cbn [snd]; try exact Hs. gs.
    rewrite nthN_updN_ne by congruence. exact Hs.
Qed.
Lemma apply_keeps i b n d : b < U64 -> zeros i d -> keeps i b (apply_deltas E n d).
Proof.
  intros Hb [H1 H2]. unfold apply_deltas. apply pres_for; [auto|intros a b' c Hx Hy Hz; auto|]. intros j. unfold keeps in *.
  assert (Hl : forall (l : list N) (k : N -> St BeaconState unit), (forall x, nthN l j = Some x -> keeps i b (k x)) -> keeps i b (sbind (lift (idx l j)) k)).
  { intros l k Hk s Hs. unfold sbind, lift. destruct (idx l j) as [x| | |] eqn:Hx; cbn [snd]; try exact Hs. apply idx_ok in Hx. apply (Hk x Hx s Hs). }
  apply Hl. intros x Hx. apply pres_bind; [intros a b' c Ha Hc Hz; auto| |].
  - apply increase_keeps; [exact Hb|]. intros ->. apply H1. exact Hx.
  - intros _. apply Hl. intros y Hy. apply decrease_keeps. intros ->. apply H2. exact Hy.
Qed.
Lemma rewards_keep f s i b : nthN (balances s) i = Some b -> b < 2 ^ 64 -> eligible_at E s i = false ->
  (f = Phase0 -> state_shape E s /\ votes_recorded E Phase0 s /\ previous_votes_in_epoch E s /\ ~ includes_votes s i) ->
  nthN (balances (snd (process_rewards_and_penalties E f s))) i = Some b.
Proof.
  intros Hb Hlt He Hph. unfold process_rewards_and_penalties. rewrite (run_rd _ _ _ (epoch_of E s)) by (apply current_epoch_ok; exact Hctx). unfold GENESIS_EPOCH.
  destruct (N.eqb_spec (epoch_of E s) 0); [exact Hb|].
  unfold sbind at 1. unfold rd at 1. destruct (reward_deltas E f s) as [ds| | |] eqn:Hds; cbn [snd]; try exact Hb.
  assert (Hz : forall d, In d ds -> zeros i d).
  { destruct (Fork_eq_dec f Phase0) as [->|Hf].
    - destruct (Hph eq_refl) as (Hsh & Hrec & Hprev & Hinc). cbn [reward_deltas] in Hds. apply rbind_ok_inv in Hds as (d & Hd & Hds). apply Ok_inj in Hds. subst ds.
      intros d' [<-|[]]. unfold get_attestation_deltas in Hd. apply rbind_ok_inv in Hd as (d1 & D1 & Hd). apply rbind_ok_inv in Hd as (d2 & D2 & Hd).
      apply rbind_ok_inv in Hd as (d3 & D3 & Hd). apply rbind_ok_inv in Hd as (d4 & D4 & Hd). apply rbind_ok_inv in Hd as (d5 & D5 & Hd). cbv zeta in Hd.
      apply rbind_ok_inv in Hd as (r & Hr & Hd). apply rbind_ok_inv in Hd as (p & Hp & Hd). apply Ok_inj in Hd. subst d.
      unfold get_source_deltas in D1. apply rbind_ok_inv in D1 as (pe1 & _ & D1). apply rbind_ok_inv in D1 as (l1 & _ & D1). apply (component_zero _ _ i) in D1 as [? ?]; [|exact He].
      unfold get_target_deltas in D2. apply rbind_ok_inv in D2 as (pe2 & _ & D2). apply rbind_ok_inv in D2 as (l2 & _ & D2). apply (component_zero _ _ i) in D2 as [? ?]; [|exact He].
      unfold get_head_deltas in D3. apply rbind_ok_inv in D3 as (pe3 & _ & D3). apply rbind_ok_inv in D3 as (l3 & _ & D3). apply (component_zero _ _ i) in D3 as [? ?]; [|exact He].
      apply (inclusion_zero s i) in D4 as [? ?]; try assumption. apply (inactivity_zero0 s i) in D5 as [? ?]; [|exact He].
      split; cbn [fst snd]; eapply sum4_zero; eauto.
    - assert (Hgo : (let! ds := rmap (fun fw => get_flag_index_deltas E s (fst fw) (snd fw)) FLAG_WEIGHTS in
        let! i := get_inactivity_penalty_deltas_altair E f s in Ok (ds ++ [i])) = Ok ds) by (destruct f; try exact Hds; contradiction).
      clear Hds. apply rbind_ok_inv in Hgo as (fl & Hfl & Hgo). apply rbind_ok_inv in Hgo as (dz & Hdz & Hgo). apply Ok_inj in Hgo. subst ds.
      intros d Hd. apply in_app_iff in Hd as [Hd|[<-|[]]]; [|eapply inactivity_zero; eauto]. apply In_nthN in Hd as (j & Hd).
      destruct (rmap_nth _ _ _ Hfl j d Hd) as (fw & _ & Hfw). eapply flag_zero; eauto. }
  unfold sbind, rd. revert Hb. generalize (lenN (validators s)). clear - Hz Hlt. intros n. assert (Hb' : b < U64) by (pows; lia). revert s. induction ds as [|d ds IH]; intros s Hb.
  - exact Hb.
  - rewrite sfor_cons. unfold sbind. pose proof (apply_keeps i b n d Hb' (Hz d (or_introl eq_refl)) s Hb) as H1. destruct (apply_deltas E n d s) as [[[]| | |] s1]; cbn [snd] in *; try exact H1.
    apply IH; [intros x Hx; apply Hz; right; exact Hx|exact H1].
Qed.
End WithEnv.
