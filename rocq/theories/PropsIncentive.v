(** * C95: honest voting pays and issuance is bounded *)
From Verif Require Import Base BaseLemmas Types Ctx Env Helpers HelpersAltair HelpersElectra Block Epoch Transition StLemmas Frame
  SpecCommon SpecShuffle SpecHelpers SpecOps SpecElectra SpecAtt SpecFinality SpecSlots SpecRegistry SpecEpoch SpecPhase0 SpecIncentive
  HelperProofs HelperProofs2 OpsProofs ElectraProofs SlashProofs AttProofs FrameProofs FinalityProofs EpochProofs RewardProofs Phase0Proofs TotalProofs
  Toy ToyCtx Toy2 PropsAtt PropsFinality PropsEpoch PropsPhase0.

Lemma ready_run (E : Env) (f : Fork) (s : BeaconState) : rewards_ready E f s ->
  exists bs, process_rewards_and_penalties E f s = (Ok tt, set_balances bs s) /\ lenN bs = lenN (balances s)
    /\ forall i b, nthN (balances s) i = Some b -> nthN bs i = Some (balance_after_rewards E f s i b).
Proof. intros (H1 & H2 & H3 & H4 & H5 & H6 & H7 & H8). apply C32_altair_exact; assumption. Qed.
Lemma ready_at (E : Env) (f : Fork) (s : BeaconState) (i b b' : N) : rewards_ready E f s -> nthN (balances s) i = Some b ->
  nthN (balances (snd (process_rewards_and_penalties E f s))) i = Some b' -> b' = balance_after_rewards E f s i b.
Proof. intros Hr Hb Hb'. destruct (ready_run E f s Hr) as (bs & H1 & _ & H3). rewrite H1 in Hb'. cbn [snd] in Hb'. gsh Hb'. rewrite (H3 i b Hb) in Hb'. congruence. Qed.

(** the step succeeds for these states *)
Theorem C95_succeeds : forall (E : Env) (f : Fork) (s : BeaconState), rewards_ready E f s -> fst (process_rewards_and_penalties E f s) = Ok tt.
Proof. intros E f s H. destruct (ready_run E f s H) as (bs & H1 & _). rewrite H1. reflexivity. Qed.
(** who voted for source, target and head in time never loses, leak or not *)
Theorem C95_full_voter : forall (E : Env) (f : Fork) (s : BeaconState) (i b b' : N),
  rewards_ready E f s -> voted_fully E s i -> nthN (balances s) i = Some b ->
  nthN (balances (snd (process_rewards_and_penalties E f s))) i = Some b' -> b <= b'.
Proof.
  intros E f s i b b' Hr Hv Hb Hb'. rewrite (ready_at E f s i b b' Hr Hb Hb'). unfold balance_after_rewards, flag_loss, inactivity_loss.
  rewrite (Hv 0), (Hv 1), (Hv 2) by lia. cbn [negb]. rewrite !andb_false_r. cbn [andb]. lia.
Qed.
(** who did not vote at all never gains *)
Theorem C95_absent : forall (E : Env) (f : Fork) (s : BeaconState) (i b b' : N),
  rewards_ready E f s -> voted_nothing E s i -> nthN (balances s) i = Some b ->
  nthN (balances (snd (process_rewards_and_penalties E f s))) i = Some b' ->
  b' <= b - (if eligible_at E s i then base_reward E s i * 14 / 64 + base_reward E s i * 26 / 64 else 0).
Proof.
  intros E f s i b b' Hr Hv Hb Hb'. rewrite (ready_at E f s i b b' Hr Hb Hb'). unfold balance_after_rewards, flag_gain, flag_loss.
  rewrite (Hv 0), (Hv 1), (Hv 2) by lia. rewrite !andb_false_r. cbn [negb andb]. rewrite !andb_true_r. change (0 =? 2) with false. change (1 =? 2) with false. change (2 =? 2) with true.
  change (flag_weight 0) with 14. change (flag_weight 1) with 26.
  generalize (inactivity_loss E f s i) (base_reward E s i * 14 / 64) (base_reward E s i * 26 / 64). intros x y z. destruct (eligible_at E s i); lia.
Qed.
(** while finality is late nobody gains *)
Theorem C95_leak : forall (E : Env) (f : Fork) (s : BeaconState) (i b b' : N),
  rewards_ready E f s -> leaking E s = true -> nthN (balances s) i = Some b ->
  nthN (balances (snd (process_rewards_and_penalties E f s))) i = Some b' -> b' <= b.
Proof.
  intros E f s i b b' Hr Hl Hb Hb'. rewrite (ready_at E f s i b b' Hr Hb Hb'). unfold balance_after_rewards, flag_gain. rewrite Hl. cbn [negb]. rewrite !andb_false_r.
  generalize (inactivity_loss E f s i) (flag_loss E s 0 i) (flag_loss E s 1 i) (flag_loss E s 2 i). intros. lia.
Qed.
Ltac triv := first [apply N.le_refl|apply N.le_0_l].
(** of two validators alike in balance, stake and score, the one that voted better ends no poorer *)
Theorem C95_better_votes : forall (E : Env) (f : Fork) (s : BeaconState) (i j b bi bj : N),
  rewards_ready E f s -> eligible_at E s i = true -> eligible_at E s j = true -> effective_balance_of s i = effective_balance_of s j ->
  nthN (inactivity_scores s) i = nthN (inactivity_scores s) j -> votes_at_most E s j i ->
  nthN (balances s) i = Some b -> nthN (balances s) j = Some b ->
  nthN (balances (snd (process_rewards_and_penalties E f s))) i = Some bi -> nthN (balances (snd (process_rewards_and_penalties E f s))) j = Some bj -> bj <= bi.
Proof.
  intros E f s i j b bi bj Hr Hi Hj He Hs Hv Hb Hb2 Hbi Hbj. rewrite (ready_at E f s i b bi Hr Hb Hbi), (ready_at E f s j b bj Hr Hb2 Hbj).
  assert (Hbr : base_reward E s i = base_reward E s j) by (unfold base_reward; rewrite He; reflexivity).
  assert (G : forall k, k < 3 -> flag_gain E s k j <= flag_gain E s k i).
  { intros k Hk. unfold flag_gain. rewrite Hi, Hj, Hbr. cbn [andb]. specialize (Hv k Hk). destruct (voted_flag E s k j); cbn [andb]; [rewrite (Hv eq_refl); triv|triv]. }
  assert (L : forall k, k < 3 -> flag_loss E s k i <= flag_loss E s k j).
  { intros k Hk. unfold flag_loss. rewrite Hi, Hj, Hbr. cbn [andb]. specialize (Hv k Hk). destruct (voted_flag E s k j); [rewrite (Hv eq_refl); cbn [andb negb]; triv|]. cbn [negb andb].
    destruct (voted_flag E s k i); cbn [negb andb]; triv. }
  assert (I : inactivity_loss E f s i <= inactivity_loss E f s j).
  { unfold inactivity_loss. rewrite Hi, Hj, He, Hs. cbn [andb]. specialize (Hv 1 ltac:(lia)). destruct (voted_flag E s 1 j); [rewrite (Hv eq_refl); cbn [andb negb]; triv|]. cbn [negb].
    destruct (voted_flag E s 1 i); cbn [negb]; triv. }
  unfold balance_after_rewards. pose proof (G 0 ltac:(lia)) as G0. pose proof (G 1 ltac:(lia)) as G1. pose proof (G 2 ltac:(lia)) as G2.
  pose proof (L 0 ltac:(lia)) as L0. pose proof (L 1 ltac:(lia)) as L1. pose proof (L 2 ltac:(lia)) as L2. clear - G0 G1 G2 L0 L1 L2 I.
  revert G0 G1 G2 L0 L1 L2 I. generalize (flag_gain E s 0 i) (flag_gain E s 1 i) (flag_gain E s 2 i) (flag_gain E s 0 j) (flag_gain E s 1 j) (flag_gain E s 2 j)
    (flag_loss E s 0 i) (flag_loss E s 1 i) (flag_loss E s 2 i) (flag_loss E s 0 j) (flag_loss E s 1 j) (flag_loss E s 2 j) (inactivity_loss E f s i) (inactivity_loss E f s j). intros. lia.
Qed.

(** ** Issuance *)
Lemma sum_div_le (g : N -> N) d l : d <> 0 -> sumN (map (fun x => g x / d) l) <= sumN (map g l) / d.
Proof.
  intros Hd. induction l as [|x l IH]; cbn [map]; [apply N.le_0_l|]. rewrite !sumN_cons.
  etransitivity; [apply N.add_le_mono_l; exact IH|]. apply N.div_le_lower_bound; [exact Hd|]. rewrite N.mul_add_distr_l.
  apply N.add_le_mono; apply N.mul_div_le; exact Hd.
Qed.
Lemma sum_map_le (g h : N -> N) l : (forall x, In x l -> g x <= h x) -> sumN (map g l) <= sumN (map h l).
Proof. induction l as [|x l IH]; intros H; cbn [map]; [reflexivity|]. rewrite !sumN_cons. specialize (H x (or_introl eq_refl)) as H1. specialize (IH (fun y Hy => H y (or_intror Hy))). lia. Qed.
Lemma sum_map_mul (g : N -> N) c l : sumN (map (fun x => c * g x) l) = c * sumN (map g l).
Proof. induction l as [|x l IH]; cbn [map]; [unfold sumN; cbn; lia|]. rewrite !sumN_cons, IH. lia. Qed.
Lemma sum_filter (p : N -> bool) (g : N -> N) l : sumN (map (fun x => if p x then g x else 0) l) = sumN (map g (filter p l)).
Proof. induction l as [|x l IH]; cbn [map filter]; [reflexivity|]. rewrite sumN_cons, IH. destruct (p x); cbn [map]; rewrite ?sumN_cons; lia. Qed.
Lemma sum_add (g h : N -> N) l : sumN (map (fun x => g x + h x) l) = sumN (map g l) + sumN (map h l).
Proof. induction l as [|x l IH]; cbn [map]; [reflexivity|]. rewrite !sumN_cons, IH. lia. Qed.
Lemma all_nth (l : list N) : l = map (fun i => match nthN l i with Some x => x | None => 0 end) (rangeN (lenN l)).
Proof.
  apply nthN_ext_len; [unfold lenN at 1 2; rewrite map_length; fold (lenN (rangeN (lenN l))); rewrite lenN_rangeN; reflexivity|].
  intros i x H. rewrite nthN_map in H. destruct (nthN (rangeN (lenN l)) i) as [k|] eqn:Hk; [|discriminate]. cbn [option_map] in H. injection H as <-.
  assert (Hi : i < lenN l) by (apply nthN_some in Hk; rewrite lenN_rangeN in Hk; exact Hk). rewrite nthN_rangeN in Hk by exact Hi. injection Hk as <-.
  destruct (nthN_lt l i Hi) as [y Hy]. rewrite Hy. reflexivity.
Qed.
Lemma gains_bounded (E : Env) (s : BeaconState) (k : N) : ctx_sane E ->
  sumN (map (flag_gain E s k) (rangeN (lenN (validators s)))) <= unit_reward E s * flag_weight k * voter_units E s k * voter_units E s k / (active_units E s * 64).
Proof.
  intros Hc. set (d := active_units E s * 64). set (l := rangeN (lenN (validators s))).
  assert (Hinc : 1 <= EFFECTIVE_BALANCE_INCREMENT E) by apply Hc.
  assert (Hau : 1 <= active_units E s). { unfold active_units, active_balance. apply N.div_le_lower_bound; lia. }
  assert (Hd : d <> 0) by (unfold d; lia).
  set (c := unit_reward E s * flag_weight k * voter_units E s k).
  assert (H1 : forall i, flag_gain E s k i <= (if voted_flag E s k i then c * (effective_balance_of s i / EFFECTIVE_BALANCE_INCREMENT E) else 0) / d).
  { intros i. unfold flag_gain. destruct (eligible_at E s i), (voted_flag E s k i), (leaking E s); cbn [andb negb]; try apply N.le_0_l.
    unfold base_reward. fold (unit_reward E s) (active_units E s) (voter_units E s k) d.
    replace (effective_balance_of s i / EFFECTIVE_BALANCE_INCREMENT E * unit_reward E s * flag_weight k * voter_units E s k) with (c * (effective_balance_of s i / EFFECTIVE_BALANCE_INCREMENT E)) by (unfold c; lia).
    apply N.le_refl. }
  etransitivity; [apply sum_map_le; intros i _; apply H1|]. etransitivity; [apply (sum_div_le (fun i => if voted_flag E s k i then c * (effective_balance_of s i / EFFECTIVE_BALANCE_INCREMENT E) else 0)); exact Hd|].
  apply N.div_le_mono; [exact Hd|]. rewrite (sum_filter (voted_flag E s k) (fun i => c * (effective_balance_of s i / EFFECTIVE_BALANCE_INCREMENT E))), sum_map_mul.
  apply N.mul_le_mono_l. etransitivity; [apply (sum_div_le (effective_balance_of s)); lia|]. apply N.div_le_mono; [lia|]. unfold flag_stake, effective_sum. apply N.le_max_l.
Qed.
(** the total of all balances grows by no more than the voters' share of the reward units of their stake *)
Theorem C95_issuance : forall (E : Env) (f : Fork) (s : BeaconState), rewards_ready E f s ->
  sumN (balances (snd (process_rewards_and_penalties E f s))) <= sumN (balances s)
    + unit_reward E s * 14 * voter_units E s 0 * voter_units E s 0 / (active_units E s * 64)
    + unit_reward E s * 26 * voter_units E s 1 * voter_units E s 1 / (active_units E s * 64)
    + unit_reward E s * 14 * voter_units E s 2 * voter_units E s 2 / (active_units E s * 64).
Proof.
  intros E f s Hr. destruct (ready_run E f s Hr) as (bs & H1 & H2 & H3). rewrite H1. cbn [snd]. gs. assert (Hc : ctx_sane E) by apply Hr.
  assert (Hl : lenN (balances s) = lenN (validators s)) by (destruct Hr as (_ & _ & _ & _ & [Hl _] & _); exact Hl).
  pose proof (gains_bounded E s 0 Hc) as G0. pose proof (gains_bounded E s 1 Hc) as G1. pose proof (gains_bounded E s 2 Hc) as G2.
  change (flag_weight 0) with 14 in G0. change (flag_weight 1) with 26 in G1. change (flag_weight 2) with 14 in G2.
  assert (HS : sumN bs <= sumN (balances s) + sumN (map (flag_gain E s 0) (rangeN (lenN (validators s)))) + sumN (map (flag_gain E s 1) (rangeN (lenN (validators s)))) + sumN (map (flag_gain E s 2) (rangeN (lenN (validators s))))).
  { rewrite (all_nth bs). rewrite (all_nth (balances s)). rewrite H2, Hl. rewrite <- !sum_add. apply sum_map_le. intros i Hi.
    assert (Hlt : i < lenN (balances s)). { rewrite Hl. apply In_nthN in Hi as (k & Hk). assert (k < lenN (validators s)) by (apply nthN_some in Hk; rewrite lenN_rangeN in Hk; exact Hk). rewrite nthN_rangeN in Hk by assumption. injection Hk as <-. assumption. }
    destruct (nthN_lt _ _ Hlt) as [b Hb]. rewrite (H3 i b Hb), Hb. unfold balance_after_rewards. clear.
    generalize (flag_gain E s 0 i) (flag_gain E s 1 i) (flag_gain E s 2 i) (flag_loss E s 0 i) (flag_loss E s 1 i) (flag_loss E s 2 i) (inactivity_loss E f s i). intros. lia. }
  etransitivity; [exact HS|]. clear - G0 G1 G2. revert G0 G1 G2.
  generalize (unit_reward E s * 14 * voter_units E s 0 * voter_units E s 0 / (active_units E s * 64)) (unit_reward E s * 26 * voter_units E s 1 * voter_units E s 1 / (active_units E s * 64))
    (unit_reward E s * 14 * voter_units E s 2 * voter_units E s 2 / (active_units E s * 64)). intros. lia.
Qed.
(** if the voters hold no more than the active stake, that is at most 54/64 of the reward units of the active stake *)
Theorem C95_issuance_cap : forall (E : Env) (f : Fork) (s : BeaconState), rewards_ready E f s ->
  (forall k, k < 3 -> flag_stake E s k <= active_balance E s) ->
  64 * sumN (balances (snd (process_rewards_and_penalties E f s))) <= 64 * sumN (balances s) + 54 * (unit_reward E s * active_units E s).
Proof.
  intros E f s Hr Hk. pose proof (C95_issuance E f s Hr) as H. assert (Hinc : 1 <= EFFECTIVE_BALANCE_INCREMENT E) by apply Hr.
  assert (Hau : 1 <= active_units E s). { unfold active_units, active_balance. apply N.div_le_lower_bound; lia. }
  assert (B : forall k w, k < 3 -> 64 * (unit_reward E s * w * voter_units E s k * voter_units E s k / (active_units E s * 64)) <= w * (unit_reward E s * active_units E s)).
  { intros k w Hlt. assert (Hle : voter_units E s k <= active_units E s) by (apply N.div_le_mono; [lia|apply Hk; exact Hlt]).
    assert (D : unit_reward E s * w * voter_units E s k * voter_units E s k / (active_units E s * 64) <= unit_reward E s * w * voter_units E s k / 64).
    { rewrite <- (N.div_mul_cancel_l (unit_reward E s * w * voter_units E s k) 64 (active_units E s)) by lia. apply N.div_le_mono; [lia|]. rewrite (N.mul_comm (active_units E s)). apply N.mul_le_mono_l. exact Hle. }
    assert (D2 : 64 * (unit_reward E s * w * voter_units E s k / 64) <= unit_reward E s * w * voter_units E s k) by (apply N.mul_div_le; lia).
    assert (D3 : unit_reward E s * w * voter_units E s k <= w * (unit_reward E s * active_units E s)).
    { replace (w * (unit_reward E s * active_units E s)) with (unit_reward E s * w * active_units E s) by lia. apply N.mul_le_mono_l. exact Hle. }
    clear - D D2 D3. revert D D2 D3. generalize (unit_reward E s * w * voter_units E s k * voter_units E s k / (active_units E s * 64)) (unit_reward E s * w * voter_units E s k / 64)
      (unit_reward E s * w * voter_units E s k) (w * (unit_reward E s * active_units E s)). intros. lia. }
  pose proof (B 0 14 ltac:(lia)) as B0. pose proof (B 1 26 ltac:(lia)) as B1. pose proof (B 2 14 ltac:(lia)) as B2. clear - H B0 B1 B2. revert H B0 B1 B2.
  generalize (unit_reward E s * 14 * voter_units E s 0 * voter_units E s 0 / (active_units E s * 64)) (unit_reward E s * 26 * voter_units E s 1 * voter_units E s 1 / (active_units E s * 64))
    (unit_reward E s * 14 * voter_units E s 2 * voter_units E s 2 / (active_units E s * 64)) (unit_reward E s * active_units E s). intros. lia.
Qed.

(** ** Phase0 *)
Lemma voters_voted (E : Env) (s : BeaconState) (right : PendingAttestation -> Prop) l i : voters E s right l -> (memN i l = true <-> voted0 E s right i).
Proof.
  intros [_ H]. rewrite memN_true. rewrite H. unfold voted0. split.
  - intros (v & Hv & Hs & Ha). split; [eauto|exact Ha].
  - intros [(v & Hv & Hs) Ha]. eauto.
Qed.
(** who voted for the right target and head, included after one slot, never loses, leak or not *)
Theorem C95_phase0_full_voter : forall (E : Env) (s : BeaconState) (i b b' : N) (a : PendingAttestation),
  rewards_ready_phase0 E s -> voted0 E s (right_head E s) i -> first_vote E s i a -> (leaking E s = true -> pa_inclusion_delay a = 1) ->
  nthN (balances s) i = Some b -> nthN (balances (snd (process_rewards_and_penalties E Phase0 s))) i = Some b' -> b <= b'.
Proof.
  intros E s i b b' a (R1 & R2 & R3 & R4 & R5 & R6 & R7 & R8 & R9 & R10 & R11 & R12) Hv Ha Hd Hb Hb'.
  destruct (C32_phase0_exact E s R1 R2 R3 R4 R5 R6 R7 R8 R9 R10 R11 R12) as (ls & lt & lh & first & V1 & V2 & V3 & V4 & bs & H1 & H2 & H3).
  rewrite H1 in Hb'. cbn [snd] in Hb'. gsh Hb'. rewrite (H3 i b Hb) in Hb'. injection Hb' as <-.
  assert (Mh : memN i lh = true) by (apply (voters_voted E s _ lh i V3); exact Hv).
  assert (Mt : memN i lt = true). { apply (voters_voted E s _ lt i V2). destruct Hv as [Hx (x & X1 & X2 & X3)]. split; [exact Hx|]. exists x. split; [exact X1|]. split; [apply X2|exact X3]. }
  assert (Ms : memN i ls = true). { apply (voters_voted E s _ ls i V1). destruct Hv as [Hx (x & X1 & X2 & X3)]. split; [exact Hx|]. exists x. split; [exact X1|]. split; [exact I|exact X3]. }
  assert (Hfirst : first i = a). { eapply C32_first_vote_determined; [apply V4; apply memN_true; exact Ms|exact Ha]. }
  unfold balance_after_phase0, vote_loss, leak_loss, vote_gain, inclusion_gain. rewrite Ms, Mt, Mh, Hfirst. cbn [negb]. rewrite !andb_false_r, !andb_true_r.
  destruct (leaking E s) eqn:Hl; cbn [andb]; [|change (0 + 0 + 0 + 0) with 0; rewrite N.sub_0_r; apply N.le_add_r]. rewrite (Hd eq_refl), N.div_1_r. destruct (eligible_at E s i); [|change (0 + 0 + 0 + 0) with 0; rewrite N.sub_0_r; apply N.le_add_r].
  assert (Hcut : proposer_cut E s i <= base0 E s i). { unfold proposer_cut. apply N.div_le_upper_bound; [destruct R11 as (Hq & _); lia|]. destruct R11 as (Hq & _). nia. }
  revert Hcut. generalize (base0 E s i) (proposer_cut E s i) (sumN (map (proposer_cut E s) (filter (fun j => pa_proposer_index (first j) =? i) ls))). intros. lia.
Qed.
(** who neither voted nor, as proposer, included votes never gains *)
Theorem C95_phase0_absent : forall (E : Env) (s : BeaconState) (i b b' : N),
  rewards_ready_phase0 E s -> ~ voted0 E s right_source i -> ~ includes_votes s i ->
  nthN (balances s) i = Some b -> nthN (balances (snd (process_rewards_and_penalties E Phase0 s))) i = Some b' ->
  b' <= b - (if eligible_at E s i then 3 * base0 E s i else 0).
Proof.
  intros E s i b b' (R1 & R2 & R3 & R4 & R5 & R6 & R7 & R8 & R9 & R10 & R11 & R12) Hv Hp Hb Hb'.
  destruct (C32_phase0_exact E s R1 R2 R3 R4 R5 R6 R7 R8 R9 R10 R11 R12) as (ls & lt & lh & first & V1 & V2 & V3 & V4 & bs & H1 & H2 & H3).
  rewrite H1 in Hb'. cbn [snd] in Hb'. gsh Hb'. rewrite (H3 i b Hb) in Hb'. injection Hb' as <-.
  assert (Hno : forall right l, voters E s right l -> memN i l = false).
  { intros right l V. destruct (memN i l) eqn:Hm; [|reflexivity]. exfalso. apply Hv. apply (voters_voted E s _ l i V) in Hm. destruct Hm as [Hx (x & X1 & X2 & X3)]. split; [exact Hx|]. exists x. repeat split; assumption. }
  assert (Hf : filter (fun j => pa_proposer_index (first j) =? i) ls = []).
  { assert (Hall : forall j, In j ls -> pa_proposer_index (first j) <> i).
    { intros j Hj Hx. apply Hp. specialize (V4 j Hj). destruct V4 as (_ & u & w & Hs & _). exists (first j). split; [rewrite Hs; apply in_or_app; right; left; reflexivity|exact Hx]. }
    clear - Hall. induction ls as [|j l IH]; [reflexivity|]. cbn [filter]. destruct (N.eqb_spec (pa_proposer_index (first j)) i) as [Hx|_]; [destruct (Hall j (or_introl eq_refl) Hx)|].
    apply IH. intros k Hk. apply Hall. right; exact Hk. }
  unfold balance_after_phase0, vote_gain, vote_loss, inclusion_gain. rewrite (Hno _ _ V1), (Hno _ _ V2), (Hno _ _ V3), Hf. cbn [negb]. rewrite !andb_false_r, !andb_true_r. change (sumN (map (proposer_cut E s) [])) with 0.
  destruct (eligible_at E s i); generalize (leak_loss E s lt i) (base0 E s i); intros; lia.
Qed.

(** ** Concrete cases *)
Lemma rewards_fit_check (E : Env) f s :
  (active_balance E s / EFFECTIVE_BALANCE_INCREMENT E * 64 <? 2 ^ 64) && (1 <=? INACTIVITY_SCORE_BIAS E * leak_quotient E f) && (INACTIVITY_SCORE_BIAS E * leak_quotient E f <? 2 ^ 64)
  && forallb (fun i => forallb (fun k => base_reward E s i * flag_weight k * (flag_stake E s k / EFFECTIVE_BALANCE_INCREMENT E) <? 2 ^ 64) (rangeN 3)
       && (effective_balance_of s i * (match nthN (inactivity_scores s) i with Some sc => sc | None => 0 end) <? 2 ^ 64)) (rangeN (lenN (validators s)))
  && forallb (fun i => match nthN (balances s) i with Some b => b + flag_gain E s 0 i + flag_gain E s 1 i + flag_gain E s 2 i <? 2 ^ 64 | None => true end) (rangeN (lenN (balances s))) = true ->
  rewards_fit E f s.
Proof.
  intros H. apply andb_true_iff in H as [H H5]. apply andb_true_iff in H as [H H4]. apply andb_true_iff in H as [H H3]. apply andb_true_iff in H as [H1 H2].
  rewrite forallb_forall in H4, H5. split; [apply N.ltb_lt; exact H1|]. split; [split; [apply N.leb_le; exact H2|apply N.ltb_lt; exact H3]|]. split; [|split].
  - intros i k Hi Hk. specialize (H4 i (proj2 (In_rangeN _ _) Hi)). apply andb_true_iff in H4 as [H4 _]. rewrite forallb_forall in H4. apply N.ltb_lt. apply H4. apply In_rangeN. exact Hk.
  - intros i Hi. specialize (H4 i (proj2 (In_rangeN _ _) Hi)). apply andb_true_iff in H4 as [_ H4]. apply N.ltb_lt. exact H4.
  - intros i b Hb. assert (Hi : i < lenN (balances s)) by (eapply nthN_some; eauto). specialize (H5 i (proj2 (In_rangeN _ _) Hi)). rewrite Hb in H5. apply N.ltb_lt. exact H5.
Qed.
(** eight alike validators: 0 and 4-7 voted fully, 1 missed the head, 2 the target as well, 3 everything *)
Definition incentive_toy (finalized : N) : BeaconState :=
  set_previous_epoch_participation [7; 3; 1; 0; 7; 7; 7; 7] (set_inactivity_scores [5; 5; 5; 5; 5; 5; 5; 5] (set_finalized_checkpoint (mkCheckpoint finalized zero32) (tiny_state 8 35))).
Lemma incentive_toy_ready n : n = 0 \/ n = 7 -> rewards_ready tiny Deneb (incentive_toy n).
Proof.
  intros Hn. unfold rewards_ready. split; [exact tiny_sane|]. split; [exact tiny_sane_att|]. split; [discriminate|].
  destruct Hn as [-> | ->]; (split; [vm_compute; discriminate|]); (split; [split; [reflexivity|intros _; repeat split; reflexivity]|]); (split; [vm_compute; discriminate|]);
    (split; [vm_compute; reflexivity|]); apply rewards_fit_check; vm_compute; reflexivity.
Qed.
Lemma three (P : N -> Prop) : P 0 -> P 1 -> P 2 -> forall k, k < 3 -> P k.
Proof. intros H0 H1 H2 k Hk. assert (Hc : k = 0 \/ k = 1 \/ k = 2) by lia. destruct Hc as [-> |[-> | ->]]; assumption. Qed.
Example C95_toy :
  rewards_ready tiny Deneb (incentive_toy 7) /\ rewards_ready tiny Deneb (incentive_toy 0)
  /\ leaking tiny (incentive_toy 7) = false /\ leaking tiny (incentive_toy 0) = true
  /\ (forall k, k < 3 -> flag_stake tiny (incentive_toy 7) k <= active_balance tiny (incentive_toy 7))
  /\ voted_fully tiny (incentive_toy 7) 0 /\ voted_nothing tiny (incentive_toy 7) 3 /\ votes_at_most tiny (incentive_toy 7) 2 1
  /\ map (fun '(a, b) => a ?= b) (combine (balances (snd (process_rewards_and_penalties tiny Deneb (incentive_toy 7)))) (balances (incentive_toy 7))) = [Gt; Gt; Lt; Lt; Gt; Gt; Gt; Gt]
  /\ map (fun '(a, b) => a ?= b) (combine (balances (snd (process_rewards_and_penalties tiny Deneb (incentive_toy 0)))) (balances (incentive_toy 0))) = [Eq; Eq; Lt; Lt; Eq; Eq; Eq; Eq].
Proof.
  split; [apply incentive_toy_ready; auto|]. split; [apply incentive_toy_ready; auto|]. split; [vm_compute; reflexivity|]. split; [vm_compute; reflexivity|].
  split; [apply three; apply N.leb_le; vm_compute; reflexivity|]. split; [unfold voted_fully; apply three; vm_compute; reflexivity|]. split; [unfold voted_nothing; apply three; vm_compute; reflexivity|].
  split; [|split; vm_compute; reflexivity]. unfold votes_at_most. apply (three (fun k => voted_flag tiny (incentive_toy 7) k 2 = true -> voted_flag tiny (incentive_toy 7) k 1 = true)); intros H; first [vm_compute; reflexivity|vm_compute in H; discriminate H].
Qed.
Example C95_phase0_toy : rewards_ready_phase0 tiny votes_toy /\ includes_votes votes_toy 6 /\ ~ includes_votes votes_toy 0.
Proof.
  destruct C32_phase0_toy as (H1 & H2 & H3 & H4 & H5 & H6 & H7 & H8 & H9 & _). split; [|split].
  - unfold rewards_ready_phase0. split; [exact tiny_sane|]. split; [exact tiny_sane_att|]. split; [exact toy_hash_wf|]. auto 12.
  - exists (mkPending [true; false] (mkAttData 8 0 (to_le 32 77) zero_cp (mkCheckpoint 2 (to_le 32 9))) 1 6). split; [right; left; reflexivity|reflexivity].
  - intros (a & Ha & Hp). cbn in Ha. destruct Ha as [<-|[<-|[]]]; discriminate.
Qed.

Print Assumptions C95_succeeds.
Print Assumptions C95_full_voter.
Print Assumptions C95_absent.
Print Assumptions C95_leak.
Print Assumptions C95_better_votes.
Print Assumptions C95_issuance.
Print Assumptions C95_issuance_cap.
Print Assumptions C95_phase0_full_voter.
Print Assumptions C95_phase0_absent.
