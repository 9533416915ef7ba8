(** * C119: along a chain the counted eth1 votes are those of the blocks of the voting period, and the recorded eth1 data is what a majority of the period voted for *)
From Verif Require Import Base BaseLemmas Types Ctx Env Helpers HelpersAltair HelpersElectra Block Epoch Transition Upgrade StLemmas
  SpecCommon SpecShuffle SpecHelpers SpecElectra SpecOps SpecBlock SpecEpoch SpecFlow SpecAtt SpecQueues SpecFinality SpecSafety SpecAuthority SpecPayload SpecBallots
  HelperProofs HelperProofs2 SlotProofs BlockProofs AuthorityProofs PayloadProofs BallotProofs
  Toy Toy2 Toy3 PropsOps PropsInvariants PropsBlock PropsFlow PropsEpoch PropsAuthority PropsEntry PropsPayload.

(** an accepted block adds its own vote, and its choice is recorded exactly if it now has a majority of the period *)
Theorem C119_block (E : Env) f s b t : chk E = true -> process_block E f b s = (Ok tt, t) ->
  let d := bb_eth1_data (bk_body b) in
  eth1_data_votes t = eth1_data_votes s ++ [d]
  /\ (has_majority E d (eth1_data_votes t) -> eth1_data t = d) /\ (~ has_majority E d (eth1_data_votes t) -> eth1_data t = eth1_data s).
Proof.
  intros Hk H d. pose proof (vote_block E f b Hk s) as V. rewrite H in V. destruct V as [_ [(_ & _ & _ & V)|(_ & _ & V1 & _ & V2)]]; [contradiction|]. split; [exact V1|]. apply V2. reflexivity.
Qed.

Lemma cast_more_w E w n x l : cast E w n l -> cast E (x :: w) n l.
Proof. induction 1; [constructor|]. econstructor; eauto. apply block_more. eassumption. Qed.
Lemma period_mono (E : Env) s t : slot s <= slot t -> period_of E s <= period_of E t.
Proof.
  intros H. unfold period_of. destruct (N.eq_dec (voting_period E) 0) as [->|Hn]; [destruct (slot s), (slot t); reflexivity|]. apply N.div_le_mono; assumption.
Qed.
(** what one step does to the votes *)
Inductive vstep (E : Env) (p q : Fork * BeaconState) : Prop :=
| vs_same : eth1_data (snd q) = eth1_data (snd p) -> bh_slot (latest_block_header (snd q)) = bh_slot (latest_block_header (snd p)) \/ bh_slot (latest_block_header (snd q)) = slot (snd p) ->
    slot (snd p) <= slot (snd q) -> eth1_data_votes (snd q) = (if period_of E (snd q) =? period_of E (snd p) then eth1_data_votes (snd p) else []) -> vstep E p q
| vs_vote f b r : fst p = f -> fst q = f -> process_block E f b (snd p) = (r, snd q) -> slot (snd q) = slot (snd p) ->
    bh_slot (latest_block_header (snd p)) < slot (snd p) -> bh_slot (latest_block_header (snd q)) = slot (snd p) -> eth1_data_votes (snd q) = eth1_data_votes (snd p) ++ [bb_eth1_data (bk_body b)] ->
    (eth1_data (snd q) = eth1_data (snd p) \/ (eth1_data (snd q) = bb_eth1_data (bk_body b) /\ has_majority E (bb_eth1_data (bk_body b)) (eth1_data_votes (snd q)))) -> vstep E p q.
Lemma step_vstep (E : Env) p q : ctx_sane E -> chk E = true -> 1 <= EPOCHS_PER_ETH1_VOTING_PERIOD E -> step E p q -> vstep E p q.
Proof.
  intros Hc Hk Hp [f s t Hb H|f b s r t H|f g s t H Hne].
  - destruct (vote_slot E f s t Hc Hk ltac:(lia) Hb H) as (S1 & S2 & S3 & S4). apply vs_same; cbn [fst snd]; [exact S2|auto|lia|exact S4].
  - pose proof (vote_block E f b Hk s) as V. rewrite H in V. destruct V as [V0 [(V1 & V2 & V3 & _)|(V1 & V2 & V3 & V4 & _)]].
    + apply vs_same; cbn [fst snd]; [exact V2|exact V3|lia|]. unfold period_of. rewrite V0, N.eqb_refl. exact V1.
    + eapply (vs_vote E _ _ f b r); cbn [fst snd]; auto.
  - destruct (vote_upgrade E f g s t H Hne) as [V1 V2 V3 V4]. apply vs_same; cbn [fst snd]; [exact V2|rewrite V3; auto|lia|]. unfold period_of. rewrite V4, N.eqb_refl. exact V1.
Qed.

(** C119: in any state of a chain of calls the votes counted are, in order, those left from the start if the period is still the same, then those of blocks of the chain within the
    current voting period, at most one for each slot *)
Theorem C119_tally (E : Env) p0 z w : ctx_sane E -> chk E = true -> 1 <= EPOCHS_PER_ETH1_VOTING_PERIOD E -> bh_slot (latest_block_header (snd p0)) <= slot (snd p0) -> walk E p0 (z :: w) ->
  exists l, cast E (z :: w) (period_of E (snd z)) l /\ eth1_data_votes (snd z) = old_votes E (snd p0) (snd z) ++ rev (map ballot l).
Proof.
  intros Hc Hk Hp Hh Hw.
  enough (G : slot (snd p0) <= slot (snd z) /\ bh_slot (latest_block_header (snd z)) <= slot (snd z)
    /\ exists l, cast E (z :: w) (period_of E (snd z)) l /\ eth1_data_votes (snd z) = old_votes E (snd p0) (snd z) ++ rev (map ballot l)
    /\ forall s b, In (s, b) l -> slot s <= bh_slot (latest_block_header (snd z))).
  { destruct G as (_ & _ & l & G1 & G2 & _). eauto. }
  remember (z :: w) as l0 eqn:El. revert z w El. induction Hw as [|p q l0 Hw IH Hs]; intros z w [= <- <-].
  { split; [lia|]. split; [exact Hh|]. exists []. split; [constructor|]. split; [|intros s b []]. unfold old_votes. rewrite N.eqb_refl. cbn [map rev]. rewrite app_nil_r. reflexivity. }
  destruct (IH p l0 eq_refl) as (N1 & N2 & l & L1 & L2 & L3). clear IH.
  destruct (step_vstep E p q Hc Hk Hp Hs) as [S1 S2 S3 S4|f b r F1 F2 H S1 S2 S3 S4 S5].
  - split; [lia|]. split; [lia|].
    assert (B : forall s b, In (s, b) l -> slot s <= bh_slot (latest_block_header (snd q))) by (intros s b Hi; specialize (L3 s b Hi); lia).
    destruct (N.eqb_spec (period_of E (snd q)) (period_of E (snd p))) as [P|P].
    + exists l. rewrite P. split; [apply cast_more_w; exact L1|]. split; [|exact B]. rewrite S4, L2. unfold old_votes. rewrite P. reflexivity.
    + exists []. split; [constructor|]. split; [|intros s b []]. rewrite S4. unfold old_votes.
      pose proof (period_mono E _ _ N1). pose proof (period_mono E _ _ S3). destruct (N.eqb_spec (period_of E (snd q)) (period_of E (snd p0))); [lia|reflexivity].
  - split; [lia|]. split; [lia|]. assert (P : period_of E (snd q) = period_of E (snd p)) by (unfold period_of; rewrite S1; reflexivity).
    exists ((snd p, b) :: l). rewrite P. split; [|split].
    + eapply (cast_more _ _ _ f); [apply cast_more_w; exact L1| |reflexivity|exact S2|intros s' b' Hi; specialize (L3 s' b' Hi); lia].
      exists r, (snd q). split; [|exact H]. rewrite <- F1 at 1. rewrite <- F2, <- !surjective_pairing. apply passes_head.
    + rewrite S4, L2. unfold old_votes. rewrite P, <- app_assoc. reflexivity.
    + intros s' b' [[= <- <-]|Hi]; [lia|]. specialize (L3 s' b' Hi). lia.
Qed.
(** the vote of an accepted block is counted until its period ends *)
Theorem C119_counted (E : Env) f s b t z w : ctx_sane E -> chk E = true -> 1 <= EPOCHS_PER_ETH1_VOTING_PERIOD E -> bh_slot (latest_block_header s) <= slot s ->
  process_block E f b s = (Ok tt, t) -> walk E (f, t) (z :: w) -> period_of E (snd z) = period_of E s -> In (bb_eth1_data (bk_body b)) (eth1_data_votes (snd z)).
Proof.
  intros Hc Hk Hp Hh H Hw Hz. pose proof (vote_block E f b Hk s) as V. rewrite H in V. destruct V as [V0 [(_ & _ & _ & V)|(_ & V1 & V2 & _)]]; [contradiction|].
  destruct (C119_tally E (f, t) z w Hc Hk Hp ltac:(cbn [snd]; lia) Hw) as (l & _ & L). rewrite L. unfold old_votes. cbn [snd].
  assert (P : period_of E t = period_of E s) by (unfold period_of; rewrite V0; reflexivity). rewrite Hz, P, N.eqb_refl, V2. apply in_or_app. left. apply in_or_app. right. left. reflexivity.
Qed.
(** the recorded eth1 data is that at the start or one a block of the chain voted for when, with that vote, a majority of its period was for it *)
Theorem C119_adopted (E : Env) p0 z w : ctx_sane E -> chk E = true -> 1 <= EPOCHS_PER_ETH1_VOTING_PERIOD E -> walk E p0 (z :: w) ->
  eth1_data (snd z) = eth1_data (snd p0)
  \/ exists f s b, passes_block E (z :: w) f s b /\ eth1_data (snd z) = bb_eth1_data (bk_body b) /\ has_majority E (bb_eth1_data (bk_body b)) (eth1_data_votes s ++ [bb_eth1_data (bk_body b)]).
Proof.
  intros Hc Hk Hp Hw. remember (z :: w) as l0 eqn:El. revert z w El. induction Hw as [|p q l0 Hw IH Hs]; intros z w [= <- <-]; [left; reflexivity|].
  specialize (IH p l0 eq_refl).
  assert (G : eth1_data (snd q) = eth1_data (snd p) -> eth1_data (snd q) = eth1_data (snd p0)
    \/ exists f s b, passes_block E (q :: p :: l0) f s b /\ eth1_data (snd q) = bb_eth1_data (bk_body b) /\ has_majority E (bb_eth1_data (bk_body b)) (eth1_data_votes s ++ [bb_eth1_data (bk_body b)])).
  { intros ->. destruct IH as [IH|(f & s & b & I1 & I2)]; [left; exact IH|right; exists f, s, b; split; [apply block_more; exact I1|exact I2]]. }
  destruct (step_vstep E p q Hc Hk Hp Hs) as [S1 _ _ _|f b r F1 F2 H S1 S2 S3 S4 [S5|[S5 S6]]]; auto.
  right. exists f, (snd p), b. split; [|split; [exact S5|rewrite <- S4; exact S6]]. exists r, (snd q). split; [|exact H]. rewrite <- F1 at 1. rewrite <- F2, <- !surjective_pairing. apply passes_head.
Qed.

(** at most one vote for each slot of the period *)
Lemma cast_few (E : Env) w n l : voting_period E <> 0 -> cast E w n l -> lenN l <= voting_period E.
Proof.
  intros Hv Hl. enough (G : lenN l <= voting_period E /\ match l with [] => True | (s, b) :: _ => n * voting_period E + lenN l <= slot s + 1 /\ slot s < n * voting_period E + voting_period E end) by apply G.
  induction Hl as [|f s b l Hl IH Hb Hp Hh Hlt]; [split; [rewrite lenN_nil; lia|exact I]|].
  assert (R : n * voting_period E <= slot s /\ slot s < n * voting_period E + voting_period E).
  { unfold period_of in Hp. pose proof (N.div_mod (slot s) _ Hv) as D. pose proof (N.mod_lt (slot s) _ Hv). rewrite Hp, (N.mul_comm (voting_period E)) in D. lia. }
  enough (G : n * voting_period E + lenN ((s, b) :: l) <= slot s + 1) by (split; [lia|split; [exact G|apply R]]).
  rewrite lenN_cons. destruct l as [|[s' b'] l]; [rewrite lenN_nil; lia|]. destruct IH as [_ [I1 I2]]. specialize (Hlt s' b' (or_introl eq_refl)). lia.
Qed.
(** within one voting period that starts without votes the recorded data changes at most once, whatever the blocks contain *)
Theorem C119_one_change_per_period (E : Env) p0 w : ctx_sane E -> chk E = true -> 1 <= EPOCHS_PER_ETH1_VOTING_PERIOD E -> bh_slot (latest_block_header (snd p0)) <= slot (snd p0) ->
  eth1_data_votes (snd p0) = [] -> walk E p0 w ->
  exists winner, forall f s, In (f, s) w -> period_of E s = period_of E (snd p0) -> eth1_data s = eth1_data (snd p0) \/ eth1_data s = winner.
Proof.
  intros Hc Hk Hp Hh Hv0 Hw. assert (Hv : voting_period E <> 0) by (unfold voting_period; apply N.neq_mul_0; split; [lia|ctxs Hc; lia]).
  set (n := period_of E (snd p0)).
  enough (G : exists winner, (forall f s, In (f, s) w -> period_of E s = n -> eth1_data s = eth1_data (snd p0) \/ eth1_data s = winner)
    /\ match w with [] => True | z :: _ => n <= period_of E (snd z) /\ (period_of E (snd z) = n -> winner = eth1_data (snd p0) \/ has_majority E winner (eth1_data_votes (snd z))) end).
  { destruct G as (winner & G & _). eauto. }
  induction Hw as [|p q l0 Hw IH Hs].
  { exists (eth1_data (snd p0)). split; [intros f s [->|[]] _; auto|]. split; [unfold n; lia|auto]. }
  destruct IH as (winner & I1 & I2 & I3).
  destruct (C119_tally E p0 q (p :: l0) Hc Hk Hp Hh (walk_step E p0 p q l0 Hw Hs)) as (lq & Q1 & Q2).
  assert (Few : period_of E (snd q) = n -> lenN (eth1_data_votes (snd q)) <= voting_period E).
  { intros Hq. rewrite Q2. unfold old_votes. fold n. rewrite Hq, N.eqb_refl, Hv0. cbn [app]. apply (cast_few E _ _ _ Hv) in Q1. revert Q1. unfold lenN. rewrite rev_length, map_length. auto. }
  destruct (step_vstep E p q Hc Hk Hp Hs) as [S1 S2 S3 S4|f b r F1 F2 H S1 S2 S3 S4 S5].
  - pose proof (period_mono E _ _ S3) as M. exists winner. split.
    + intros f s [->|Hi] Hn; [|apply (I1 f s Hi Hn)]. cbn [snd] in *. rewrite S1. apply (I1 (fst p) (snd p)); [left; apply surjective_pairing|lia].
    + split; [lia|]. intros Hq. assert (Hpn : period_of E (snd p) = n) by lia. rewrite S4, Hq, Hpn, N.eqb_refl. auto.
  - assert (P : period_of E (snd q) = period_of E (snd p)) by (unfold period_of; rewrite S1; reflexivity).
    assert (Keep : winner = eth1_data (snd p0) \/ has_majority E winner (eth1_data_votes (snd p)) -> winner = eth1_data (snd p0) \/ has_majority E winner (eth1_data_votes (snd q))).
    { intros [X|X]; [left; exact X|right]. rewrite S4. unfold has_majority in *. rewrite votes_for_app. lia. }
    destruct (N.eq_dec (period_of E (snd p)) n) as [Hpn|Hpn].
    2: { exists winner. split; [|split; [lia|intros Hq; lia]]. intros f' s [->|Hi] Hn; [cbn [snd] in *; lia|apply (I1 f' s Hi Hn)]. }
    specialize (I3 Hpn). specialize (Few ltac:(lia)). destruct S5 as [S5|[S5 S6]].
    + exists winner. split; [|split; [lia|intros _; apply Keep; exact I3]]. intros f' s [->|Hi] Hn; [|apply (I1 f' s Hi Hn)]. cbn [snd] in *. rewrite S5. apply (I1 (fst p) (snd p)); [left; apply surjective_pairing|exact Hpn].
    + destruct (Keep I3) as [K|K].
      * exists (eth1_data (snd q)). split; [|split; [lia|intros _; right; rewrite S5; exact S6]]. intros f' s [->|Hi] Hn; [cbn [snd]; auto|]. destruct (I1 f' s Hi Hn) as [J|J]; left; congruence.
      * assert (W : winner = bb_eth1_data (bk_body b)) by exact (majority_unique E _ _ _ Few K S6). exists winner. split; [|split; [lia|intros _; right; exact K]].
        intros f' s [->|Hi] Hn; [|apply (I1 f' s Hi Hn)]. cbn [snd] in *. right. congruence.
Qed.

(** two blocks of the chain of C117 vote, and both votes are counted *)
Example C119_example : ctx_sane tiny /\ chk tiny = true /\ 1 <= EPOCHS_PER_ETH1_VOTING_PERIOD tiny /\ bh_slot (latest_block_header slash_toy) <= slot slash_toy
  /\ walk tiny (Deneb, slash_toy) [(Deneb, after_second); (Deneb, next_slot); (Deneb, after_first); (Deneb, slash_toy)]
  /\ eth1_data_votes slash_toy = [] /\ period_of tiny after_second = period_of tiny slash_toy
  /\ eth1_data_votes after_second = map ballot [(slash_toy, first_block); (next_slot, second_block)].
Proof. split; [exact tiny_sane|]. split; [reflexivity|]. split; [vm_compute; discriminate|]. split; [vm_compute; discriminate|]. split; [exact two_block_walk|]. vm_compute. auto. Qed.
(** the ninth vote of a period of sixteen slots is adopted, the eighth is not *)
Definition counted (k : N) : BeaconState := set_eth1_data_votes (repeatN (bb_eth1_data (bk_body first_block)) k) (set_eth1_data (mkEth1 (repeat 7 32) 4 (repeat 8 32)) slash_toy).
Example C119_example_adopted :
  let (r7, t7) := process_block tiny Deneb first_block (counted 7) in let (r8, t8) := process_block tiny Deneb first_block (counted 8) in
  r7 = Ok tt /\ r8 = Ok tt /\ eth1_data t7 = eth1_data (counted 7) /\ eth1_data t8 = bb_eth1_data (bk_body first_block) /\ eth1_data t7 <> eth1_data t8.
Proof. vm_compute. repeat split. discriminate. Qed.

Print Assumptions C119_block.
Print Assumptions C119_tally.
Print Assumptions C119_counted.
Print Assumptions C119_adopted.
Print Assumptions C119_one_change_per_period.
