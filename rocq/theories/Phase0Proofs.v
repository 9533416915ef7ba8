(** * Proofs about the rewards and penalties of phase0 (proof file; no model definitions) *)
From Verif Require Import Base BaseLemmas Types Ctx Env Helpers HelpersAltair HelpersElectra Block Epoch Transition StLemmas Frame
  SpecCommon SpecShuffle SpecHelpers SpecOps SpecElectra SpecAtt SpecFinality SpecSlots SpecEpoch SpecPhase0
  HelperProofs HelperProofs2 OpsProofs ElectraProofs SlashProofs AttProofs FrameProofs FinalityProofs EpochProofs RewardProofs.

(** ** the earliest vote *)
Lemma min_delay_spec : forall t best m, min_delay best t = m ->
  (m = best /\ forall a, In a t -> pa_inclusion_delay best <= pa_inclusion_delay a)
  \/ (pa_inclusion_delay m < pa_inclusion_delay best /\ exists u w, t = u ++ m :: w
      /\ (forall a, In a u -> pa_inclusion_delay m < pa_inclusion_delay a) /\ forall a, In a w -> pa_inclusion_delay m <= pa_inclusion_delay a).
Proof.
  induction t as [|b t IH]; intros best m Hmd; cbn [min_delay] in Hmd; [left; split; [congruence|intros a []]|].
  destruct (N.ltb_spec (pa_inclusion_delay b) (pa_inclusion_delay best)) as [Hlt|Hge].
  - right. destruct (IH b m Hmd) as [[-> H]|(Hm & u & w & -> & H1 & H2)].
    + split; [exact Hlt|]. exists [], t. split; [reflexivity|]. split; [intros a []|exact H].
    + split; [lia|]. exists (b :: u), w. split; [reflexivity|]. split; [|exact H2]. intros a [<-|Ha]; [exact Hm|auto].
  - destruct (IH best m Hmd) as [[-> H]|(Hm & u & w & -> & H1 & H2)].
    + left. split; [reflexivity|]. intros a [<-|Ha]; auto.
    + right. split; [exact Hm|]. exists (b :: u), w. split; [reflexivity|]. split; [|exact H2]. intros a [<-|Ha]; [lia|auto].
Qed.
Lemma rfilter_split {A} (p : A -> res bool) : forall l u m w, rfilter p l = Ok (u ++ m :: w) ->
  exists l1 l2, l = l1 ++ m :: l2 /\ rfilter p l1 = Ok u /\ rfilter p l2 = Ok w.
Proof.
  induction l as [|a l IH]; intros u m w H; cbn [rfilter] in H.
  - apply Ok_inj in H. destruct u; discriminate.
  - apply rbind_ok_inv in H as (b & Hb & H). apply rbind_ok_inv in H as (r & Hr & H). apply Ok_inj in H. destruct b.
    + destruct u as [|c u]; cbn [app] in H; injection H as -> ->.
      * exists [], l. split; [reflexivity|]. split; [reflexivity|exact Hr].
      * destruct (IH u m w Hr) as (l1 & l2 & -> & H1 & H2). exists (c :: l1), l2. split; [reflexivity|]. split; [|exact H2].
        cbn [rfilter]. rewrite Hb. cbn [rbind]. rewrite H1. reflexivity.
    + subst r. destruct (IH u m w Hr) as (l1 & l2 & -> & H1 & H2). exists (a :: l1), l2. split; [reflexivity|]. split; [|exact H2].
      cbn [rfilter]. rewrite Hb. cbn [rbind]. rewrite H1. reflexivity.
Qed.
Lemma sum_le_pointwise (g h : N -> N) l : (forall j, In j l -> g j <= h j) -> sumN (map g l) <= sumN (map h l).
Proof. induction l as [|j l IH]; intros H; cbn [map]; rewrite ?sumN_cons; [lia|]. specialize (IH (fun k Hk => H k (or_intror Hk))). specialize (H j (or_introl eq_refl)). lia. Qed.
Lemma sum_filter_le (g : N -> N) p l : sumN (map g (filter p l)) <= sumN (map g l).
Proof. induction l as [|j l IH]; cbn [filter]; [lia|]. destruct (p j); cbn [map]; rewrite ?sumN_cons; lia. Qed.

Section WithEnv.
Variable E : Env.
Hypothesis Hctx : ctx_sane E.
Hypothesis Hatt : ctx_sane_att E.
Hypothesis Hwf : hash_wf (hash E).

Lemma earliest_ok s i : state_shape E s -> (forall a, In a (previous_epoch_attestations s) -> pending_recorded E s a) ->
  (exists a, In a (previous_epoch_attestations s) /\ attests E s a i) ->
  exists a, earliest_attestation E s (previous_epoch_attestations s) i = Ok a /\ first_vote E s i a.
Proof.
  intros Hsh Hrec (a0 & Ha0 & Hat0). unfold earliest_attestation. set (p := fun a => let! x := get_attesting_indices E s (pa_data a) (pa_aggregation_bits a) in Ok (memN i x)).
  assert (Hp : forall a, In a (previous_epoch_attestations s) -> exists b, p a = Ok b /\ (b = true <-> attests E s a i)).
  { intros a Ha. destruct (attesting_of E Hctx Hwf s a Hsh (Hrec a Ha)) as (x & Hx & Hin). unfold p. rewrite Hx. cbn [rbind]. eexists. split; [reflexivity|].
    rewrite memN_true. apply Hin. }
  destruct (rfilter_total p (previous_epoch_attestations s)) as [mine Hmine]; [intros a Ha; destruct (Hp a Ha) as (b & Hb & _); eauto|].
  rewrite Hmine. cbn [rbind].
  assert (Hm0 : In a0 mine). { apply (In_rfilter _ _ _ Hmine). split; [exact Ha0|]. destruct (Hp a0 Ha0) as (b & Hb & Hi). rewrite Hb. f_equal. apply Hi. exact Hat0. }
  destruct mine as [|c t]; [contradiction|]. exists (min_delay c t). split; [reflexivity|]. set (m := min_delay c t).
  assert (Hsplit : exists u w, c :: t = u ++ m :: w /\ (forall a, In a u -> pa_inclusion_delay m < pa_inclusion_delay a) /\ forall a, In a w -> pa_inclusion_delay m <= pa_inclusion_delay a).
  { destruct (min_delay_spec t c m eq_refl) as [[Hc H]|(Hlt & u & w & Ht & H1 & H2)].
    - exists [], t. rewrite Hc. split; [reflexivity|]. split; [intros a []|exact H].
    - exists (c :: u), w. split; [rewrite Ht; reflexivity|]. split; [|exact H2]. intros a [<-|Ha]; auto. }
  destruct Hsplit as (u & w & Hct & Hu & Hw). clearbody m. rewrite Hct in Hmine. destruct (rfilter_split p _ _ _ _ Hmine) as (l1 & l2 & Hl & H1 & H2).
  assert (Hkeep : forall l k, rfilter p l = Ok k -> (forall a, In a l -> In a (previous_epoch_attestations s)) -> forall b, In b l -> attests E s b i -> In b k).
  { intros l k Hk Hsub b Hb Hat. apply (In_rfilter _ _ _ Hk). split; [exact Hb|]. destruct (Hp b (Hsub b Hb)) as (x & Hx & Hi). rewrite Hx. f_equal. apply Hi. exact Hat. }
  split.
  - assert (Hm : In m (u ++ m :: w)) by (apply in_or_app; right; left; reflexivity). apply (In_rfilter _ _ _ Hmine) in Hm as [Hm1 Hm2].
    destruct (Hp m Hm1) as (x & Hx & Hi). apply Hi. congruence.
  - exists l1, l2. split; [exact Hl|]. split; intros b Hb Hat.
    + apply Hu. apply (Hkeep l1 u H1); [|exact Hb|exact Hat]. intros a Ha. rewrite Hl. apply in_or_app. auto.
    + apply Hw. apply (Hkeep l2 w H2); [|exact Hb|exact Hat]. intros a Ha. rewrite Hl. apply in_or_app. right; right; exact Ha.
Qed.

(** ** base rewards *)
Lemma base0_ok s i : active_balance_fits E s -> i < lenN (validators s) -> effective_balance_of s i * BASE_REWARD_FACTOR E < 2 ^ 64 ->
  get_base_reward_phase0 E s i = Ok (base0 E s i).
Proof.
  intros Hfit Hi Hb. unfold get_base_reward_phase0. rewrite total_active_ok by assumption. cbn [rbind]. destruct (nthN_lt (validators s) i Hi) as [v Hv].
  unfold base0. rewrite (effective_balance_of_some s i v Hv) in *. rewrite (proj2 (idx_ok _ _ _) Hv). cbn [rbind]. unfold mul. rewrite umul_ok by (pows; lia). cbn [rbind].
  pose proof (inc_nz E Hctx) as Hinc. assert (Hsq : 1 <= N.sqrt (active_balance E s)). { change 1 with (N.sqrt 1). apply N.sqrt_le_mono. unfold active_balance. lia. }
  rewrite udiv_ok by lia. cbn [rbind]. unfold BASE_REWARDS_PER_EPOCH. rewrite udiv_ok by lia. reflexivity.
Qed.
Lemma cut_le s i : proposer_cut E s i <= base0 E s i.
Proof. unfold proposer_cut. destruct (N.eq_dec (PROPOSER_REWARD_QUOTIENT E) 0) as [->|H]; [destruct (base0 E s i); cbn; lia|]. apply N.div_le_upper_bound; [exact H|]. nia. Qed.
Lemma cut_ok s i : active_balance_fits E s -> i < lenN (validators s) -> effective_balance_of s i * BASE_REWARD_FACTOR E < 2 ^ 64 -> 1 <= PROPOSER_REWARD_QUOTIENT E ->
  get_proposer_reward E s i = Ok (proposer_cut E s i).
Proof. intros H1 H2 H3 H4. unfold get_proposer_reward. rewrite base0_ok by assumption. cbn [rbind]. apply udiv_ok. lia. Qed.

(** ** source, target and head *)
Definition ready0 (s : BeaconState) : Prop :=
  epoch_of E s <> 0 /\ lenN (balances s) = lenN (validators s) /\ cp_epoch (finalized_checkpoint s) <= prev_epoch_of E s /\ stake_fits s /\ rewards_fit_phase0 E s.
Lemma stake_le s l : NoDup l -> (forall i, In i l -> i < lenN (validators s)) ->
  stake_of E s l / EFFECTIVE_BALANCE_INCREMENT E <= N.max (sumN (map v_effective_balance (validators s))) (EFFECTIVE_BALANCE_INCREMENT E) / EFFECTIVE_BALANCE_INCREMENT E.
Proof.
  intros Hnd Hr. apply N.div_le_mono; [apply inc_nz; exact Hctx|]. unfold stake_of. pose proof (effective_sum_le s l Hnd Hr). lia.
Qed.
Lemma gain_bound s l i : NoDup l -> (forall i, In i l -> i < lenN (validators s)) ->
  vote_gain E s l i <= base0 E s i * (1 + N.max (sumN (map v_effective_balance (validators s))) (EFFECTIVE_BALANCE_INCREMENT E) / EFFECTIVE_BALANCE_INCREMENT E).
Proof.
  intros Hnd Hr. pose proof (stake_le s l Hnd Hr) as H. unfold vote_gain. set (S := N.max _ _ / _) in *. set (A := stake_of E s l / _) in *. clearbody S A.
  assert (Hm : base0 E s i * A <= base0 E s i * S) by (apply N.mul_le_mono_l; exact H).
  destruct (_ && _); [|lia]. destruct (leaking E s); [lia|]. set (q := active_balance E s / _). destruct (N.eq_dec q 0) as [->|Hq].
  - destruct (base0 E s i * A); cbn; lia.
  - assert (base0 E s i * A / q <= base0 E s i * A); [|lia]. apply N.div_le_upper_bound; [exact Hq|]. clear H Hm. nia.
Qed.
Lemma component_run s la l : ready0 s -> get_unslashed_attesting_indices E s la = Ok l -> NoDup l -> (forall i, In i l -> i < lenN (validators s)) ->
  exists d, get_attestation_component_deltas E s la = Ok d
    /\ forall i, i < lenN (validators s) -> nthN (fst d) i = Some (vote_gain E s l i) /\ nthN (snd d) i = Some (vote_loss E s l i).
Proof.
  intros (He & Hlb & Hfin & Hst & Hfit) Hl Hnd Hr. destruct Hfit as (Hq1 & Hq2 & F1 & _ & _ & F4). destruct (active_total E Hctx s Hst) as [Hab _].
  unfold get_attestation_component_deltas. rewrite total_active_ok by assumption. cbn [rbind]. rewrite Hl. cbn [rbind].
  assert (Htot : get_total_balance E s l = Ok (stake_of E s l)).
  { rewrite get_total_balance_ok by exact Hr. pose proof (effective_sum_le s l Hnd Hr) as Hle. unfold stake_fits in Hst.
    destruct (N.ltb_spec (effective_sum s l) U64) as [_|Hc]; [reflexivity|pows; lia]. }
  rewrite Htot. cbn [rbind]. rewrite eligible_ok by exact Hctx. cbn [rbind]. set (n := lenN (validators s)) in *.
  pose proof (inc_nz E Hctx) as Hinc. pose proof (gain_bound s l) as Hgb. pose proof (stake_le s l Hnd Hr) as Hsl.
  assert (Hact : 1 <= active_balance E s / EFFECTIVE_BALANCE_INCREMENT E).
  { apply N.div_le_lower_bound; [exact Hinc|]. unfold active_balance. lia. }
  destruct (rfold_pair (component_step E s (active_balance E s) (stake_of E s l) l) (vote_gain E s l) (vote_loss E s l) n
      (indices_where (eligible_v E s) (validators s)) (repeatN 0 n, repeatN 0 n)) as (d & D1 & D2 & D3 & D4 & D5).
  - apply NoDup_indices_where.
  - intros i Hi. apply In_eligible, eligible_lt in Hi. exact Hi.
  - apply lenN_repeatN.
  - apply lenN_repeatN.
  - intros i Hi. apply In_eligible, eligible_lt in Hi. cbn [fst snd]. rewrite nthN_repeatN by exact Hi. auto.
  - intros d i Hi L1 L2 Z1 Z2. apply In_eligible in Hi. pose proof (eligible_lt E _ _ Hi) as Hlt. fold n in Hlt.
    destruct (nthN_lt (balances s) i ltac:(lia)) as [b Hb]. specialize (F4 i b Hb). specialize (F1 i Hlt).
    specialize (Hgb i Hnd Hr). unfold component_step, vote_gain, vote_loss in *. rewrite Hi in *. cbn [andb] in *. rewrite base0_ok by assumption. set (S := N.max _ _ / _) in *.
    destruct (memN i l); cbn [negb andb] in *.
    + rewrite leak_ok by assumption. cbn [rbind]. rewrite (updN_id (snd d)) by exact Z2. destruct (leaking E s).
      * rewrite (bump_ok E _ _ 0) by (exact Z1 || (pows; lia)). rewrite N.add_0_l. reflexivity.
      * rewrite udiv_ok by exact Hinc. cbn [rbind]. set (A := stake_of E s l / _) in *.
        assert (Hm : base0 E s i * A <= base0 E s i * S) by (apply N.mul_le_mono_l; exact Hsl).
        unfold mul. rewrite umul_ok by (pows; lia). cbn [rbind]. rewrite udiv_ok by exact Hinc. cbn [rbind]. rewrite udiv_ok by lia. cbn [rbind].
        rewrite (bump_ok E _ _ 0) by (exact Z1 || (pows; lia)). rewrite N.add_0_l. reflexivity.
    + cbn [rbind]. rewrite (updN_id (fst d)) by exact Z1. rewrite (bump_ok E _ _ 0) by (exact Z2 || (pows; lia)). rewrite N.add_0_l. reflexivity.
  - exists d. split; [exact D1|]. intros i Hlt. destruct (eligible_at E s i) eqn:Hel.
    + apply D4. apply In_eligible. exact Hel.
    + destruct (D5 i) as [-> ->]; [intros Hi; apply In_eligible in Hi; congruence|]. cbn [fst snd]. rewrite nthN_repeatN by exact Hlt.
      unfold vote_gain, vote_loss. rewrite Hel. auto.
Qed.

(** ** inclusion *)
Lemma bump_fold (p x y : N -> N) n (step : list N -> N -> res (list N)) : forall l d, lenN d = n -> (forall j, In j l -> j < n /\ p j < n) ->
  (forall d j, In j l -> step d j = (let! r := bump E d (p j) (x j) in bump E r j (y j))) ->
  (forall i a, nthN d i = Some a -> a + sumN (map (fun j => x j + y j) l) < U64) ->
  exists d', rfold step l d = Ok d' /\ lenN d' = n
    /\ forall i a, nthN d i = Some a -> nthN d' i = Some (a + sumN (map x (filter (fun j => p j =? i) l)) + sumN (map y (filter (fun j => j =? i) l))).
Proof.
  induction l as [|j l IH]; intros d Hd Hin Hstep Hb.
  - exists d. split; [reflexivity|]. split; [exact Hd|]. intros i a Ha. cbn. rewrite Ha. f_equal. lia.
  - destruct (Hin j (or_introl eq_refl)) as [Hj Hp]. cbn [rfold]. rewrite Hstep by (left; reflexivity).
    destruct (nthN_lt d (p j) ltac:(lia)) as [a1 Ha1]. pose proof (Hb _ _ Ha1) as Hb1. cbn [map] in Hb1. rewrite sumN_cons in Hb1.
    rewrite (bump_ok E _ _ a1) by (exact Ha1 || lia). cbn [rbind].
    set (d1 := updN d (p j) (a1 + x j)). assert (L1 : lenN d1 = n) by (unfold d1; rewrite lenN_updN; exact Hd).
    assert (Hd1 : forall i a, nthN d i = Some a -> nthN d1 i = Some (a + (if p j =? i then x j else 0))).
    { intros i a Ha. unfold d1. destruct (N.eqb_spec (p j) i) as [<-|Hne].
      - rewrite nthN_updN_eq by lia. congruence.
      - rewrite nthN_updN_ne by exact Hne. rewrite Ha. f_equal. lia. }
    destruct (nthN_lt d j ltac:(lia)) as [a2 Ha2]. pose proof (Hb _ _ Ha2) as Hb2. cbn [map] in Hb2. rewrite sumN_cons in Hb2.
    rewrite (bump_ok E _ _ _ _ (Hd1 j a2 Ha2)) by (destruct (p j =? j); lia). cbn [rbind]. set (d2 := updN d1 j _).
    assert (Hd2 : forall i a, nthN d i = Some a -> nthN d2 i = Some (a + (if p j =? i then x j else 0) + (if j =? i then y j else 0))).
    { intros i a Ha. unfold d2. destruct (N.eqb_spec j i) as [<-|Hne].
      - rewrite nthN_updN_eq by lia. rewrite Ha2 in Ha. injection Ha as <-. reflexivity.
      - rewrite nthN_updN_ne by exact Hne. rewrite (Hd1 i a Ha). f_equal. lia. }
    destruct (IH d2) as (d' & R1 & R2 & R3).
    + unfold d2. rewrite lenN_updN. exact L1.
    + intros k Hk. apply Hin. right; exact Hk.
    + intros d0 k Hk. apply Hstep. right; exact Hk.
    + intros i a Ha. assert (Hi : i < lenN d) by (apply nthN_some in Ha; unfold d2 in Ha; rewrite lenN_updN, L1 in Ha; lia).
      destruct (nthN_lt d i Hi) as [c Hc]. rewrite (Hd2 i c Hc) in Ha. injection Ha as <-. pose proof (Hb _ _ Hc) as Hb3. cbn [map] in Hb3. rewrite sumN_cons in Hb3.
      destruct (p j =? i), (j =? i); lia.
    + exists d'. split; [exact R1|]. split; [exact R2|]. intros i a Ha. rewrite (R3 i _ (Hd2 i a Ha)). f_equal. cbn [filter].
      destruct (p j =? i), (j =? i); cbn [map]; rewrite ?sumN_cons; lia.
Qed.
Lemma sum_one (y : N -> N) i : forall l, NoDup l -> sumN (map y (filter (fun j => j =? i) l)) = if memN i l then y i else 0.
Proof.
  induction l as [|j l IH]; intros Hnd; [reflexivity|]. inversion Hnd as [|? ? Hj Hl]; subst. cbn [filter]. destruct (N.eqb_spec j i) as [->|Hne].
  - cbn [map]. rewrite sumN_cons, IH by exact Hl. destruct (memN i l) eqn:Hm; [apply memN_true in Hm; contradiction|].
    assert (memN i (i :: l) = true) as -> by (apply memN_true; left; reflexivity). lia.
  - rewrite IH by exact Hl. destruct (memN i l) eqn:Hm.
    + assert (memN i (j :: l) = true) as -> by (apply memN_true; right; apply memN_true; exact Hm). reflexivity.
    + assert (memN i (j :: l) = false) as ->; [|reflexivity]. apply memN_false. intros [H|H]; [congruence|]. apply memN_false in Hm. contradiction.
Qed.
Definition any_vote : PendingAttestation := mkPending [] (mkAttData 0 0 zero32 (mkCheckpoint 0 zero32) (mkCheckpoint 0 zero32)) 0 0.
Definition earliest (s : BeaconState) (i : N) : PendingAttestation :=
  match earliest_attestation E s (previous_epoch_attestations s) i with Ok a => a | _ => any_vote end.
Lemma source_list s : epoch_of E s <> 0 -> get_matching_source_attestations E s (prev_epoch_of E s) = Ok (previous_epoch_attestations s).
Proof.
  intros He. unfold get_matching_source_attestations. rewrite previous_epoch_ok, current_epoch_ok by exact Hctx. cbn [rbind]. rewrite N.eqb_refl. cbn [negb andb].
  assert (Hpc : (prev_epoch_of E s =? epoch_of E s) = false) by (apply N.eqb_neq; unfold prev_epoch_of; lia). rewrite Hpc. reflexivity.
Qed.
Lemma voters_ok s la right : state_shape E s -> previous_votes_sound E s -> (forall a, In a la <-> In a (previous_epoch_attestations s) /\ right a) ->
  exists l, get_unslashed_attesting_indices E s la = Ok l /\ voters E s right l.
Proof.
  intros Hsh Hv Hla. destruct (unslashed_attesting E Hctx Hwf s la Hsh) as (l & Hl & Hnd & Hin); [intros a Ha; apply Hla in Ha as [Ha _]; apply Hv; exact Ha|].
  exists l. split; [exact Hl|]. split; [exact Hnd|]. intros i. rewrite Hin. split.
  - intros (v & H1 & H2 & a & com & k & Ha & H). exists v. split; [exact H1|]. split; [exact H2|]. apply Hla in Ha as [Ha Hr]. exists a. split; [exact Ha|]. split; [exact Hr|]. exists com, k. exact H.
  - intros (v & H1 & H2 & a & Ha & Hr & com & k & H). exists v. split; [exact H1|]. split; [exact H2|]. exists a, com, k. split; [apply Hla; auto|exact H].
Qed.
Lemma voters_lt s right l : voters E s right l -> forall i, In i l -> i < lenN (validators s).
Proof. intros [_ H] i Hi. apply H in Hi as (v & Hv & _). eapply nthN_some; eauto. Qed.
Lemma inclusion_run s l : state_shape E s -> ready0 s -> previous_votes_sound E s ->
  get_unslashed_attesting_indices E s (previous_epoch_attestations s) = Ok l -> voters E s right_source l ->
  (forall i, In i l -> first_vote E s i (earliest s i)) /\
  exists d, get_inclusion_delay_deltas E s = Ok d
    /\ forall i, i < lenN (validators s) -> nthN (fst d) i = Some (inclusion_gain E s l (earliest s) i) /\ nthN (snd d) i = Some 0.
Proof.
  intros Hsh (He & Hlb & Hfin & Hst & Hfit) Hv Hl Hvl. destruct Hfit as (Hq1 & Hq2 & F1 & _ & _ & F4). destruct (active_total E Hctx s Hst) as [Hab _].
  assert (Hfirst : forall i, In i l -> earliest_attestation E s (previous_epoch_attestations s) i = Ok (earliest s i) /\ first_vote E s i (earliest s i)).
  { intros i Hi. apply Hvl in Hi as (v & _ & _ & a & Ha & _ & Hat). destruct (earliest_ok s i Hsh) as (b & Hb & Hf); [intros c Hc; apply Hv; exact Hc|eauto|].
    unfold earliest. rewrite Hb. auto. }
  split; [intros i Hi; apply Hfirst; exact Hi|]. pose proof (voters_lt s _ l Hvl) as Hr. destruct Hvl as [Hnd _]. set (n := lenN (validators s)) in *.
  assert (Hfv : forall i, In i l -> In (earliest s i) (previous_epoch_attestations s)).
  { intros i Hi. destruct (Hfirst i Hi) as [_ (_ & u & w & -> & _)]. apply in_or_app. right; left; reflexivity. }
  unfold get_inclusion_delay_deltas. rewrite previous_epoch_ok by exact Hctx. cbn [rbind]. rewrite source_list by exact He. cbn [rbind]. rewrite Hl. cbn [rbind]. fold n.
  set (y := fun j => (base0 E s j - proposer_cut E s j) / pa_inclusion_delay (earliest s j)).
  assert (Hy : forall j, In j l -> y j <= base0 E s j - proposer_cut E s j).
  { intros j Hj. unfold y. pose proof (Hv _ (Hfv j Hj)) as (_ & _ & _ & Hd). apply N.div_le_upper_bound; [lia|]. nia. }
  destruct (bump_fold (fun j => pa_proposer_index (earliest s j)) (proposer_cut E s) y n (inclusion_step E s (previous_epoch_attestations s)) l (repeatN 0 n)) as (d & D1 & D2 & D3).
  - apply lenN_repeatN.
  - intros j Hj. split; [apply Hr; exact Hj|]. apply (Hv _ (Hfv j Hj)).
  - intros d j Hj. unfold inclusion_step. destruct (Hfirst j Hj) as [-> _]. cbn [rbind]. pose proof (Hr j Hj) as Hlt. specialize (F1 j Hlt).
    rewrite cut_ok by assumption. cbn [rbind]. destruct (bump E d _ _) as [r| | |]; cbn [rbind]; try reflexivity. rewrite base0_ok by assumption. cbn [rbind].
    unfold sub. rewrite usub_ok by apply cut_le. cbn [rbind]. rewrite udiv_ok; [reflexivity|]. pose proof (Hv _ (Hfv j Hj)) as (_ & _ & _ & Hd). lia.
  - intros i a Ha. pose proof (nthN_some _ _ _ Ha) as Hlt. rewrite lenN_repeatN in Hlt. rewrite nthN_repeatN in Ha by exact Hlt. injection Ha as <-.
    destruct (nthN_lt (balances s) i ltac:(lia)) as [b Hb]. specialize (F4 i b Hb). cbv zeta in F4.
    assert (sumN (map (fun j => proposer_cut E s j + y j) l) <= sumN (map (base0 E s) (rangeN n))).
    2:{ set (A := sumN (map (base0 E s) (rangeN n))) in *. set (B := 3 * _) in F4. set (D := sumN _). fold D in H. clearbody A B D. clear - F4 H. pows. lia. }
    etransitivity; [apply (sum_le_pointwise _ (base0 E s))|].
    + intros j Hj. specialize (Hy j Hj). pose proof (cut_le s j). lia.
    + apply NoDup_sum_le; [exact Hnd|]. intros j Hj. apply In_rangeN. apply Hr. exact Hj.
  - rewrite D1. cbn [rbind]. eexists. split; [reflexivity|]. cbn [fst snd]. intros i Hlt. split; [|apply nthN_repeatN; exact Hlt].
    rewrite (D3 i 0) by (apply nthN_repeatN; exact Hlt). f_equal. unfold inclusion_gain. rewrite sum_one by exact Hnd. unfold y. lia.
Qed.

(** ** leak *)
Lemma leak_run s lt : ready0 s -> state_shape E s -> slot_small s -> 0 < slot s mod SLOTS_PER_EPOCH E ->
  (leaking E s = true -> exists la, get_matching_target_attestations E s (prev_epoch_of E s) = Ok la /\ get_unslashed_attesting_indices E s la = Ok lt) ->
  exists d, get_inactivity_penalty_deltas_phase0 E s = Ok d
    /\ forall i, i < lenN (validators s) -> nthN (fst d) i = Some 0 /\ nthN (snd d) i = Some (leak_loss E s lt i).
Proof.
  intros (He & Hlb & Hfin & Hst & Hfit) Hsh Hs Hm Hlt. destruct Hfit as (Hq1 & Hq2 & F1 & F2 & F3 & F4). destruct (active_total E Hctx s Hst) as [Hab _].
  unfold get_inactivity_penalty_deltas_phase0. rewrite previous_epoch_ok by exact Hctx. cbn [rbind]. rewrite leak_ok by assumption. cbn [rbind]. set (n := lenN (validators s)) in *.
  destruct (leaking E s) eqn:Hlk.
  2:{ eexists. split; [reflexivity|]. intros i Hi. cbn [fst snd]. unfold leak_loss. rewrite Hlk. cbn [andb]. rewrite nthN_repeatN by exact Hi. auto. }
  destruct (Hlt eq_refl) as (la & H1 & H2). rewrite H1. cbn [rbind]. rewrite H2. cbn [rbind]. rewrite eligible_ok by exact Hctx. cbn [rbind].
  destruct (rfold_single (inactivity_step_phase0 E s lt) (leak_loss E s lt) n (indices_where (eligible_v E s) (validators s)) (repeatN 0 n)) as (d & D1 & D3 & D4 & D5).
  - apply NoDup_indices_where.
  - intros i Hin. apply In_eligible, eligible_lt in Hin. exact Hin.
  - apply lenN_repeatN.
  - intros i Hin. apply In_eligible, eligible_lt in Hin. apply nthN_repeatN. exact Hin.
  - intros d i Hin L1 Z1. apply In_eligible in Hin. pose proof (eligible_lt E _ _ Hin) as Hi. specialize (F1 i Hi). specialize (F2 i Hi). specialize (F3 i Hi).
    unfold inactivity_step_phase0. rewrite base0_ok by assumption. cbn [rbind]. rewrite cut_ok by assumption. cbn [rbind]. unfold mul, BASE_REWARDS_PER_EPOCH.
    pose proof (cut_le s i) as Hcut. assert (F5 : 7 * base0 E s i < 2 ^ 64) by (eapply N.le_lt_trans; [|exact F3]; apply N.le_add_r).
    assert (F6 : 4 * base0 E s i < U64) by (clear - F5; pows; lia). assert (F7 : 0 + (4 * base0 E s i - proposer_cut E s i) < U64) by (clear - F6; lia).
    assert (F8 : proposer_cut E s i <= 4 * base0 E s i) by (clear - Hcut; lia).
    rewrite umul_ok by exact F6. cbn [rbind]. unfold sub. rewrite usub_ok by exact F8. cbn [rbind].
    rewrite (bump_ok E _ _ 0) by (exact Z1 || exact F7). cbn [rbind]. unfold leak_loss. rewrite Hlk, Hin. cbn [andb]. rewrite N.add_0_l.
    destruct (memN i lt).
    + rewrite N.add_0_r. reflexivity.
    + destruct (nthN_lt (validators s) i Hi) as [v Hv]. rewrite (effective_balance_of_some s i v Hv) in F2, F3 |- *. rewrite (proj2 (idx_ok _ _ _) Hv). cbn [rbind].
      unfold get_finality_delay. rewrite previous_epoch_ok by exact Hctx. cbn [rbind]. unfold sub. rewrite usub_ok by exact Hfin. cbn [rbind].
      rewrite umul_ok by exact F2. cbn [rbind]. rewrite udiv_ok by (clear - Hq2; lia). cbn [rbind].
      rewrite (bump_ok E _ _ (4 * base0 E s i - proposer_cut E s i)).
      * f_equal. apply nthN_ext. intros k. rewrite !nthN_updN, lenN_updN. destruct (_ && _); reflexivity.
      * apply nthN_updN_eq. rewrite L1. exact Hi.
      * set (Q := _ / _) in *. clearbody Q. clear - F3 F8. pows. lia.
  - rewrite D1. cbn [rbind]. eexists. split; [reflexivity|]. cbn [fst snd]. intros i Hi. split; [apply nthN_repeatN; exact Hi|]. destruct (eligible_at E s i) eqn:Hel.
    + apply D4. apply In_eligible. exact Hel.
    + rewrite D5 by (intros Hin; apply In_eligible in Hin; congruence). rewrite nthN_repeatN by exact Hi. unfold leak_loss. rewrite Hel, andb_false_r. reflexivity.
Qed.

(** ** the whole computation *)
Lemma target_list s : state_shape E s -> slot_small s -> 0 < slot s mod SLOTS_PER_EPOCH E -> epoch_of E s <> 0 ->
  exists l, get_matching_target_attestations E s (prev_epoch_of E s) = Ok l /\ forall a, In a l <-> In a (previous_epoch_attestations s) /\ right_target E s a.
Proof.
  intros Hsh Hs Hm He. destruct (matching_target E Hctx Hatt s (prev_epoch_of E s) Hsh Hs Hm (or_intror eq_refl)) as (l & Hl & Hin).
  exists l. split; [exact Hl|]. intros a. rewrite Hin. assert (Hpc : (prev_epoch_of E s =? epoch_of E s) = false) by (apply N.eqb_neq; unfold prev_epoch_of; lia). rewrite Hpc. reflexivity.
Qed.
Lemma head_list s : state_shape E s -> slot_small s -> 0 < slot s mod SLOTS_PER_EPOCH E -> epoch_of E s <> 0 -> previous_votes_sound E s ->
  exists l, get_matching_head_attestations E s (prev_epoch_of E s) = Ok l /\ forall a, In a l <-> In a (previous_epoch_attestations s) /\ right_head E s a.
Proof.
  intros Hsh Hs Hm He Hv. destruct (target_list s Hsh Hs Hm He) as (lt & Hlt & Hin). unfold get_matching_head_attestations. rewrite Hlt. cbn [rbind].
  assert (Hroot : forall a, In a lt -> exists r, recorded_root E s (ad_slot (pa_data a)) = Some r /\ get_block_root_at_slot E s (ad_slot (pa_data a)) = Ok r).
  { intros a Ha. apply Hin in Ha as [Ha _]. destruct (Hv a Ha) as (_ & Hsl & _).
    assert (Hspe : 1 <= SLOTS_PER_EPOCH E <= 4096) by (clear - Hctx; ctxs Hctx; lia). destruct Hatt as (_ & H2 & _).
    set (x := ad_slot (pa_data a)) in *. pose proof (N.div_mod x (SLOTS_PER_EPOCH E) ltac:(lia)) as D1. pose proof (N.mod_lt x (SLOTS_PER_EPOCH E) ltac:(lia)) as M1.
    pose proof (N.div_mod (slot s) (SLOTS_PER_EPOCH E) ltac:(lia)) as D2. pose proof (N.mod_lt (slot s) (SLOTS_PER_EPOCH E) ltac:(lia)) as M2.
    unfold prev_epoch_of, epoch_of in *. rewrite Hsl in D1. set (q := slot s / SLOTS_PER_EPOCH E) in *. set (m := slot s mod SLOTS_PER_EPOCH E) in *. set (k := x mod SLOTS_PER_EPOCH E) in *.
    set (n := SLOTS_PER_EPOCH E) in *. clearbody q m k n x. assert (Hq : n * q = n * (q - 1) + n) by (replace q with (q - 1 + 1) at 1 by lia; lia).
    apply (block_root_at E Hctx s x Hsh Hs); lia. }
  set (p := fun a => let! root := get_block_root_at_slot E s (ad_slot (pa_data a)) in Ok (bytes_eqb (ad_beacon_block_root (pa_data a)) root)).
  destruct (rfilter_total p lt) as [l Hl]. { intros a Ha. destruct (Hroot a Ha) as (r & _ & Hr). unfold p. rewrite Hr. cbn [rbind]. eauto. }
  exists l. split; [exact Hl|]. intros a. rewrite (In_rfilter _ _ _ Hl). split.
  - intros [Ha Hp]. destruct (Hroot a Ha) as (r & R1 & R2). unfold p in Hp. rewrite R2 in Hp. cbn [rbind] in Hp. apply Ok_inj, bytes_eqb_true in Hp.
    apply Hin in Ha as [Ha Ht]. split; [exact Ha|]. split; [exact Ht|]. congruence.
  - intros (Ha & Ht & Hh). assert (Hlta : In a lt) by (apply Hin; auto). split; [exact Hlta|]. destruct (Hroot a Hlta) as (r & R1 & R2). unfold p. rewrite R2. cbn [rbind].
    f_equal. apply bytes_eqb_true. congruence.
Qed.
Lemma sum4_run n a b c d (ga gb gc gd : N -> N) :
  (forall i, i < n -> nthN a i = Some (ga i)) -> (forall i, i < n -> nthN b i = Some (gb i)) -> (forall i, i < n -> nthN c i = Some (gc i)) -> (forall i, i < n -> nthN d i = Some (gd i)) ->
  (forall i, i < n -> ga i + gb i + gc i + gd i < U64) ->
  sum4 E n a b c d = Ok (map (fun i => ga i + gb i + gc i + gd i) (rangeN n)).
Proof.
  intros Ha Hb Hc Hd Hs. unfold sum4.
  assert (H : forall l, (forall i, In i l -> i < n) -> rmap (fun i => let! x := idx a i in let! y := idx b i in let! z := idx c i in let! w := idx d i in
                 let! t := add E x y in let! u := add E t z in add E u w) l = Ok (map (fun i => ga i + gb i + gc i + gd i) l)).
  { induction l as [|i l IH]; intros Hin; [reflexivity|]. cbn [rmap map]. assert (Hi : i < n) by (apply Hin; left; reflexivity).
    rewrite (proj2 (idx_ok _ _ _) (Ha i Hi)), (proj2 (idx_ok _ _ _) (Hb i Hi)), (proj2 (idx_ok _ _ _) (Hc i Hi)), (proj2 (idx_ok _ _ _) (Hd i Hi)). cbn [rbind].
    pose proof (Hs i Hi) as Hsi. assert (Hadd : forall x y, x + y < U64 -> add E x y = Ok (x + y)) by (intros x y Hxy; apply uadd_ok; exact Hxy).
    rewrite Hadd by lia. cbn [rbind]. rewrite Hadd by lia. cbn [rbind]. rewrite Hadd by lia. cbn [rbind].
    rewrite IH by (intros j Hj; apply Hin; right; exact Hj). reflexivity. }
  apply H. intros i Hi. apply In_rangeN. exact Hi.
Qed.
Lemma nthN_map_range (g : N -> N) n i : i < n -> nthN (map g (rangeN n)) i = Some (g i).
Proof. intros Hi. rewrite nthN_map, nthN_rangeN by exact Hi. reflexivity. Qed.
Lemma inclusion_bound s ls first i : previous_votes_sound E s -> voters E s right_source ls -> (forall j, In j ls -> first_vote E s j (first j)) ->
  inclusion_gain E s ls first i <= sumN (map (base0 E s) (rangeN (lenN (validators s)))).
Proof.
  intros Hv S2 Hf. pose proof (voters_lt s _ _ S2) as Ls. set (n := lenN (validators s)) in *. unfold inclusion_gain. destruct S2 as [Snd _].
  set (y := fun j => (base0 E s j - proposer_cut E s j) / pa_inclusion_delay (first j)).
  change (if memN i ls then (base0 E s i - proposer_cut E s i) / pa_inclusion_delay (first i) else 0) with (if memN i ls then y i else 0).
  rewrite <- (sum_one y i ls Snd). etransitivity; [apply N.add_le_mono; apply sum_filter_le|].
  etransitivity; [|apply (NoDup_sum_le (base0 E s) ls (rangeN n) Snd); intros j Hj; apply In_rangeN; apply Ls; exact Hj].
  assert (Hy : forall j, In j ls -> y j + proposer_cut E s j <= base0 E s j).
  { intros j Hj. unfold y. destruct (Hf j Hj) as (_ & u & w & Hl & _). assert (Hj' : In (first j) (previous_epoch_attestations s)) by (rewrite Hl; apply in_or_app; right; left; reflexivity).
    destruct (Hv _ Hj') as (_ & _ & _ & Hd). pose proof (cut_le s j) as Hc.
    assert ((base0 E s j - proposer_cut E s j) / pa_inclusion_delay (first j) <= base0 E s j - proposer_cut E s j); [apply N.div_le_upper_bound; [lia|nia]|lia]. }
  clear - Hy. induction ls as [|j l IH]; [cbn; lia|]. cbn [map]. rewrite !sumN_cons. specialize (Hy j (or_introl eq_refl)) as Hj.
  specialize (IH (fun k Hk => Hy k (or_intror Hk))). lia.
Qed.
Lemma phase0_run s : state_shape E s -> slot_small s -> 0 < slot s mod SLOTS_PER_EPOCH E -> ready0 s -> previous_votes_sound E s ->
  exists ls lt lh first,
    voters E s right_source ls /\ voters E s (right_target E s) lt /\ voters E s (right_head E s) lh
    /\ (forall i, In i ls -> first_vote E s i (first i))
    /\ exists bs, process_rewards_and_penalties E Phase0 s = (Ok tt, set_balances bs s) /\ lenN bs = lenN (balances s)
       /\ forall i b, nthN (balances s) i = Some b -> nthN bs i = Some (balance_after_phase0 E s ls lt lh first i b).
Proof.
  intros Hsh Hs Hm R Hv. pose proof R as (He & Hlb & Hfin & Hst & Hfit). pose proof Hfit as (_ & _ & _ & _ & F3 & F4).
  destruct (voters_ok s (previous_epoch_attestations s) right_source Hsh Hv) as (ls & S1 & S2); [unfold right_source; tauto|].
  destruct (target_list s Hsh Hs Hm He) as (ta & Hta & Tin). destruct (voters_ok s ta _ Hsh Hv Tin) as (lt & T1 & T2).
  destruct (head_list s Hsh Hs Hm He Hv) as (ha & Hha & Hin). destruct (voters_ok s ha _ Hsh Hv Hin) as (lh & H1 & H2).
  pose proof (voters_lt s _ _ S2) as Ls. pose proof (voters_lt s _ _ T2) as Lt. pose proof (voters_lt s _ _ H2) as Lh.
  destruct (component_run s _ ls R S1 (proj1 S2) Ls) as (ds & Ds1 & Ds2). destruct (component_run s _ lt R T1 (proj1 T2) Lt) as (dt & Dt1 & Dt2).
  destruct (component_run s _ lh R H1 (proj1 H2) Lh) as (dh & Dh1 & Dh2). destruct (inclusion_run s ls Hsh R Hv S1 S2) as [Hf (di & Di1 & Di2)].
  destruct (leak_run s lt R Hsh Hs Hm) as (dl & Dl1 & Dl2); [intros _; exists ta; auto|].
  exists ls, lt, lh, (earliest s). split; [exact S2|]. split; [exact T2|]. split; [exact H2|]. split; [exact Hf|].
  pose proof (gain_bound s ls) as Gs. pose proof (gain_bound s lt) as Gt. pose proof (gain_bound s lh) as Gh.
  set (n := lenN (validators s)) in *. set (S := N.max _ _ / _) in *. cbv zeta in F4.
  assert (Hig : forall i, i < n -> inclusion_gain E s ls (earliest s) i <= sumN (map (base0 E s) (rangeN n))) by (intros i _; apply (inclusion_bound s ls (earliest s) i Hv S2 Hf)).
  set (g := fun i => vote_gain E s ls i + vote_gain E s lt i + vote_gain E s lh i + inclusion_gain E s ls (earliest s) i).
  set (h := fun i => vote_loss E s ls i + vote_loss E s lt i + vote_loss E s lh i + leak_loss E s lt i).
  assert (Hg : forall i b, nthN (balances s) i = Some b -> b + g i < U64).
  { intros i b Hb. specialize (F4 i b Hb). assert (Hi : i < n) by (apply nthN_some in Hb; lia). specialize (Hig i Hi).
    specialize (Gs i (proj1 S2) Ls). specialize (Gt i (proj1 T2) Lt). specialize (Gh i (proj1 H2) Lh). unfold g. set (P := base0 E s i * _) in *. set (A := sumN _) in *. clearbody P A S.
    clear - F4 Hig Gs Gt Gh. pows. lia. }
  assert (Hh : forall i, i < n -> h i < U64).
  { intros i Hi. specialize (F3 i Hi). unfold h, vote_loss, leak_loss. set (Q := _ / INACTIVITY_PENALTY_QUOTIENT E) in *. clearbody Q. pose proof (cut_le s i) as Hc.
    clear - F3 Hc. pows. destruct (eligible_at E s i), (memN i ls), (memN i lt), (memN i lh), (leaking E s); cbn [andb negb]; lia. }
  assert (Hd : get_attestation_deltas E s = Ok (map g (rangeN n), map h (rangeN n))).
  { unfold get_attestation_deltas, get_source_deltas, get_target_deltas, get_head_deltas. rewrite previous_epoch_ok by exact Hctx. cbn [rbind]. rewrite source_list by exact He.
    cbn [rbind]. rewrite Ds1. cbn [rbind]. rewrite Hta. cbn [rbind]. rewrite Dt1. cbn [rbind]. rewrite Hha. cbn [rbind]. rewrite Dh1. cbn [rbind]. rewrite Di1. cbn [rbind]. rewrite Dl1. cbn [rbind]. fold n.
    rewrite (sum4_run n _ _ _ _ (vote_gain E s ls) (vote_gain E s lt) (vote_gain E s lh) (inclusion_gain E s ls (earliest s))).
    - cbn [rbind]. rewrite (sum4_run n _ _ _ _ (vote_loss E s ls) (vote_loss E s lt) (vote_loss E s lh) (leak_loss E s lt)); [reflexivity|..].
      + intros i Hi. apply Ds2. exact Hi. + intros i Hi. apply Dt2. exact Hi. + intros i Hi. apply Dh2. exact Hi. + intros i Hi. apply Dl2. exact Hi. + exact Hh.
    - intros i Hi. apply Ds2. exact Hi. - intros i Hi. apply Dt2. exact Hi. - intros i Hi. apply Dh2. exact Hi. - intros i Hi. apply Di2. exact Hi.
    - intros i Hi. destruct (nthN_lt (balances s) i ltac:(lia)) as [b Hb]. specialize (Hg i b Hb). unfold g in Hg. lia. }
  destruct (apply_deltas_run E s (map g (rangeN n), map h (rangeN n)) g h) as (bs & B1 & B2 & B3).
  - exact Hlb.
  - intros i Hi. cbn [fst snd]. rewrite !nthN_map_range by exact Hi. auto.
  - exact Hg.
  - exists bs. split.
    + unfold process_rewards_and_penalties. rewrite (run_rd _ _ _ (epoch_of E s)) by (apply current_epoch_ok; exact Hctx). unfold GENESIS_EPOCH. destruct (N.eqb_spec (epoch_of E s) 0); [contradiction|].
      rewrite (run_rd _ _ _ [(map g (rangeN n), map h (rangeN n))]) by (unfold reward_deltas; rewrite Hd; reflexivity).
      rewrite (run_rd _ _ _ n) by reflexivity. cbn [sfor]. rewrite (run_bind _ _ _ _ _ B1). reflexivity.
    + split; [rewrite B2, Hlb; reflexivity|]. intros i b Hb. rewrite (B3 i b Hb). reflexivity.
Qed.
End WithEnv.
