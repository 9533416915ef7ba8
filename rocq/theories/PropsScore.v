(** * A validator's inactivity score rises only when it misses votes *)
From Verif Require Import Base BaseLemmas Types Ctx Env Helpers HelpersAltair HelpersElectra Block Epoch Transition Upgrade StLemmas
  SpecCommon SpecHelpers SpecEpoch SpecFinality SpecSafety SpecScore Frame HelperProofs HelperProofs2 AuthorityProofs ScoreProofs Toy Toy2 Toy3 PropsEpoch PropsArchive.

(** what one step of a chain does to the score of validator [i] *)
Lemma step_one (E : Env) p q i : ctx_sane E -> step E p q ->
  if ends E p q then (if voted_flag E (snd p) 1 i then score (snd q) i <= score (snd p) i - 1
                      else score (snd q) i <= score (snd p) i + (if eligible_at E (snd p) i then INACTIVITY_SCORE_BIAS E else 0))
  else score (snd q) i <= score (snd p) i.
Proof.
  intros Hc Hs. destruct Hs as [f s t Hb H|f b s r t H|f g s t H Hne]; cbn [snd].
  - exact (slot_score E Hc f s t i Hb H).
  - assert (X : slot t = slot s) by (pose proof (hs_block E f _ (evp_block E f b) s) as (_ & _ & X); rewrite H in X; exact X).
    unfold ends. cbn [fst snd]. assert (Y : epoch_of E t = epoch_of E s) by (unfold epoch_of; rewrite X; reflexivity). rewrite Y, N.eqb_refl. cbn [negb]. rewrite andb_false_r. cbn [andb].
    pose proof (fd_block E f b s i) as F. rewrite H in F. exact F.
  - destruct (up_call E f g s t H Hne) as (_ & X & _).
    unfold ends. cbn [fst snd]. assert (Y : epoch_of E t = epoch_of E s) by (unfold epoch_of; rewrite X; reflexivity). rewrite Y, N.eqb_refl. cbn [negb]. rewrite andb_false_r. cbn [andb].
    exact (fd_upgrade E f g s t H Hne i).
Qed.
(** Along any chain of slots, blocks and upgrades, the inactivity score of a validator, which sets how fast it loses stake while finality is late, rises by no more
    than the fixed bias for each end of an epoch at which it had the duty to vote and is not credited with a timely vote for the target. *)
Theorem C126_rises_only_by_misses (E : Env) p0 z w i : ctx_sane E -> walk E p0 (z :: w) ->
  score (snd z) i <= score (snd p0) i + INACTIVITY_SCORE_BIAS E * misses E i (z :: w).
Proof.
  intros Hc H. remember (z :: w) as zw eqn:Ez. revert z w Ez. induction H as [|p q l H IH Hs]; intros z w Ez; injection Ez as <- <-; [cbn [misses]; lia|].
  specialize (IH p l eq_refl). pose proof (step_one E p q i Hc Hs) as S.
  change (misses E i (q :: p :: l)) with ((if ends E p q && eligible_at E (snd p) i && negb (voted_flag E (snd p) 1 i) then 1 else 0) + misses E i (p :: l)).
  rewrite N.mul_add_distr_l. generalize dependent (INACTIVITY_SCORE_BIAS E * misses E i (p :: l)). intros M IH.
  destruct (ends E p q), (voted_flag E (snd p) 1 i), (eligible_at E (snd p) i); cbn [andb negb]; lia.
Qed.
(** Whoever misses none is not only never charged more: its score falls, by one at least for every vote, until it is zero. *)
Theorem C126_recovers (E : Env) p0 z w i : ctx_sane E -> walk E p0 (z :: w) -> misses E i (z :: w) = 0 ->
  score (snd z) i <= score (snd p0) i - hits E i (z :: w).
Proof.
  intros Hc H. remember (z :: w) as zw eqn:Ez. revert z w Ez. induction H as [|p q l H IH Hs]; intros z w Ez H0; injection Ez as <- <-; [cbn [hits]; lia|].
  pose proof (step_one E p q i Hc Hs) as S.
  change (misses E i (q :: p :: l)) with ((if ends E p q && eligible_at E (snd p) i && negb (voted_flag E (snd p) 1 i) then 1 else 0) + misses E i (p :: l)) in H0.
  assert (H1 : misses E i (p :: l) = 0) by lia. specialize (IH p l eq_refl H1). clear H1.
  change (hits E i (q :: p :: l)) with ((if ends E p q && voted_flag E (snd p) 1 i then 1 else 0) + hits E i (p :: l)).
  destruct (ends E p q), (voted_flag E (snd p) 1 i), (eligible_at E (snd p) i); cbn [andb negb] in *; lia.
Qed.

(** finality is late and an epoch ends: validator 1 did not vote and is charged, validator 4 voted and recovers, validators 2, 3 and 5 are not active *)
Definition leak_toy : BeaconState := set_slot 63 epoch_toy.
Definition leak_after : BeaconState := snd (process_slots tiny Altair 64 leak_toy).
Example C126_example : ctx_sane tiny /\ walk tiny (Altair, leak_toy) [(Altair, leak_after); (Altair, leak_toy)]
  /\ INACTIVITY_SCORE_BIAS tiny = 4 /\ inactivity_scores leak_toy = [50; 60; 0; 7; 9; 0] /\ inactivity_scores leak_after = [50; 64; 0; 7; 8; 0]
  /\ map (fun i => misses tiny i [(Altair, leak_after); (Altair, leak_toy)]) [0; 1; 2; 3; 4; 5] = [0; 1; 0; 0; 0; 0]
  /\ map (fun i => hits tiny i [(Altair, leak_after); (Altair, leak_toy)]) [0; 1; 2; 3; 4; 5] = [0; 0; 0; 0; 1; 0].
Proof.
  split; [exact tiny_sane|]. split.
  - apply walk_step; [apply walk_start|]. apply step_slot; [vm_compute; reflexivity|]. change (slot leak_toy + 1) with 64.
    assert (H : fst (process_slots tiny Altair 64 leak_toy) = Ok tt) by (vm_compute; reflexivity). unfold leak_after. rewrite <- H. apply surjective_pairing.
  - repeat split; vm_compute; reflexivity.
Qed.

Print Assumptions C126_rises_only_by_misses.
Print Assumptions C126_recovers.
