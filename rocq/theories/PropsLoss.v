(** * C116: whoever does their duty loses nothing; on a chain of calls every loss has a cause *)
From Verif Require Import Base BaseLemmas Types Ctx Env Helpers HelpersAltair HelpersElectra Block Epoch Transition Upgrade StLemmas
  SpecCommon SpecHelpers SpecElectra SpecOps SpecBlock SpecEpoch SpecFlow SpecAtt SpecQueues SpecFinality SpecSafety SpecAuthority SpecEntry SpecDebit
  HelperProofs HelperProofs2 SlotProofs HistoryProofs SafetyChain AuthorityProofs DebitProofs DebitEpoch
  Toy Toy2 Toy3 PropsOps PropsInvariants PropsBlock PropsFlow PropsEpoch PropsVotes PropsAuthority PropsEntry PropsIncentive PropsDebit.

(** the end of an epoch, whatever the outcome of [process_epoch]: a balance that is lower afterwards belongs to a validator that missed its votes, is slashed or
    is being consolidated *)
Theorem C116_epoch (E : Env) f s r t i v x y : ctx_sane E -> chk E = true -> fork_le Altair f = true -> process_epoch E f s = (r, t) ->
  nthN (validators s) i = Some v -> nthN (balances s) i = Some x -> nthN (balances t) i = Some y -> y < x -> epoch_debit_due E f s i v.
Proof.
  intros Hc Hk Hf H Hv Hx Hy Hlt. pose proof (e_epoch E f s Hc Hk Hf i v x Hv Hx) as (z & A1 & A2). rewrite H in A1. cbn [snd] in A1. destruct A2 as [A2|A2]; [|exact A2].
  rewrite A1 in Hy. injection Hy as ->. lia.
Qed.
(** so an unslashed validator with timely source and target votes, whose balance is not being moved, never loses at the end of an epoch, leak or not *)
Theorem C116_duty_done (E : Env) f s r t i v x y : ctx_sane E -> chk E = true -> fork_le Altair f = true -> process_epoch E f s = (r, t) ->
  nthN (validators s) i = Some v -> nthN (balances s) i = Some x -> nthN (balances t) i = Some y ->
  v_slashed v = false -> active_at (prev_epoch_of E s) v = true ->
  (exists p, nthN (previous_epoch_participation s) i = Some p /\ N.testbit p 0 = true /\ N.testbit p 1 = true) ->
  (forall c, In c (pending_consolidations s) -> pc_source_index c <> i /\ pc_target_index c <> i) -> x <= y.
Proof.
  intros Hc Hk Hf H Hv Hx Hy Hs Ha (p & Hp & H0 & H1) Hq. destruct (N.le_gt_cases x y) as [|Hlt]; [assumption|exfalso].
  destruct (C116_epoch E f s r t i v x y Hc Hk Hf H Hv Hx Hy Hlt) as [(_ & M)|[M|(_ & c & Hin & M)]].
  - unfold voted_flag in M. rewrite Hv, Hp, Ha, Hs, H0, H1 in M. destruct M as [M|M]; discriminate M.
  - congruence.
  - destruct (Hq c Hin) as [Q1 Q2]. destruct M as [M|[M _]]; contradiction.
Qed.

Lemma before_slot (E : Env) f : pres before (process_slot E f).
Proof. unfold process_slot. repeat be1. apply pres_md. intros t. destruct (bytes_eqb _ _); [constructor; gs; reflexivity|apply before_refl]. Qed.
Lemma debit_slot (E : Env) f s t : ctx_sane E -> chk E = true -> fork_le Altair f = true -> slot s + 1 < 2 ^ 64 -> process_slots E f (slot s + 1) s = (Ok tt, t) ->
  (forall i v, nthN (validators s) i = Some v -> exists v', nthN (validators t) i = Some v')
  /\ gbal s (fun i v => (slot s + 1) mod SLOTS_PER_EPOCH E = 0 /\ epoch_debit_due E f s i v) t.
Proof.
  intros Hc Hk Hf Hb H. assert (Hb' : slot s + 1 < U64) by (rewrite U64_val; pows; lia).
  assert (Ha : advance_slot E f s = (Ok tt, t)).
  { rewrite process_slots_loop in H by lia. replace (N.to_nat (slot s + 1 - slot s)) with 1%nat in H by lia.
    rewrite loop_step in H by lia. apply sbind_ok_inv in H as ([] & m & H1 & H). rewrite loop_done in H; [injection H as <-; exact H1|].
    destruct (advance_inv E Hc f s m Hb' H1) as (s1 & s2 & _ & _ & _ & S2 & ->). gs. lia. }
  destruct (advance_inv E Hc f s t Hb' Ha) as (s1 & s2 & A1 & A2 & A3 & A4 & ->). gs. unfold gbal. gs.
  pose proof (before_slot E f s) as Q. rewrite A1 in Q. cbn [snd] in Q. destruct Q as [Q1 Q2 Q3 Q4 Q5 Q6 Q7].
  destruct (N.eqb_spec ((slot s + 1) mod SLOTS_PER_EPOCH E) 0) as [Hm|Hm].
  - pose proof (ep_epoch E f s1 Hc) as I. rewrite A3 in I. cbn [snd] in I. split.
    + intros i v Hv. rewrite <- Q1 in Hv. destruct (iv_old _ _ _ _ I i v Hv) as (v' & A & _). eauto.
    + intros i v x Hv Hx. pose proof (e_epoch E f s1 Hc Hk Hf i v x) as B. rewrite Q1, Q2, A3 in B. cbn [snd] in B. destruct (B Hv Hx) as (y & B1 & B2). exists y. split; [exact B1|].
      destruct B2 as [B2|B2]; [left; exact B2|right]. split; [exact Hm|]. destruct B2 as [B2|[B2|(B2 & c & B3 & B4)]]; [left|right; left; exact B2|right; right].
      * unfold missed_votes, eligible_at, eligible_v, voted_flag, prev_epoch_of, epoch_of in *. rewrite !Q1, Q3, Q4 in B2. exact B2.
      * split; [exact B2|]. exists c. rewrite <- Q5. auto.
  - subst s2. rewrite Q1, Q2. split; [eauto|]. intros i v x _ Hx. exists x. split; [exact Hx|left; lia].
Qed.
(** one slot: nothing changes within an epoch *)
Theorem C116_slot (E : Env) f s t i v x y : ctx_sane E -> chk E = true -> fork_le Altair f = true -> slot s + 1 < 2 ^ 64 -> process_slots E f (slot s + 1) s = (Ok tt, t) ->
  nthN (validators s) i = Some v -> nthN (balances s) i = Some x -> nthN (balances t) i = Some y -> y < x ->
  (slot s + 1) mod SLOTS_PER_EPOCH E = 0 /\ epoch_debit_due E f s i v.
Proof.
  intros Hc Hk Hf Hb H Hv Hx Hy Hlt. destruct (debit_slot E f s t Hc Hk Hf Hb H) as [_ B]. destruct (B i v x Hv Hx) as (z & A1 & [A2|A2]); [|exact A2]. rewrite A1 in Hy. injection Hy as ->. lia.
Qed.
(** the upgrades: only that to electra lowers balances *)
Theorem C116_upgrade (E : Env) f g s t i v x y : chk E = true -> chain_call E (f, s) (g, t) -> f <> g ->
  nthN (validators s) i = Some v -> nthN (balances s) i = Some x -> nthN (balances t) i = Some y -> y < x -> requeued f g v.
Proof.
  intros Hk H Hne Hv Hx Hy Hlt. destruct (g_call E f g s t Hk H Hne) as [_ B]. destruct (B i v x Hv Hx) as (z & A1 & [A2|A2]); [|exact A2]. rewrite A1 in Hy. injection Hy as ->. lia.
Qed.
(** C116: on any chain of calls from altair on that has no queued partial withdrawals (C54, C115), a validator whose balance is lower at the end than at the start had a
    cause to lose at some step *)
Lemma forks_grow (E : Env) p q : step E p q -> fork_le Altair (fst p) = true -> fork_le Altair (fst q) = true.
Proof. intros Hs. destruct Hs as [f s t Hb H|f b s r t H|f g s t H Hne]; cbn [fst]; auto. inversion H; subst; auto. Qed.
Theorem C116_every_loss_has_a_cause (E : Env) p0 z l i v x y : ctx_sane E -> chk E = true -> fork_le Altair (fst p0) = true -> walk E p0 (z :: l) -> slot (snd z) < 2 ^ 64 - 1 ->
  (forall f s, In (f, s) (z :: l) -> f = Electra -> pending_partial_withdrawals s = []) ->
  nthN (validators (snd p0)) i = Some v -> nthN (balances (snd p0)) i = Some x -> nthN (balances (snd z)) i = Some y -> y < x -> loses E (z :: l) i.
Proof.
  intros Hc Hk Hf Hw Hz Hq Hv Hx Hy Hlt.
  assert (G : fork_le Altair (fst z) = true /\ (exists v', nthN (validators (snd z)) i = Some v') /\ exists y', nthN (balances (snd z)) i = Some y' /\ (x <= y' \/ loses E (z :: l) i)).
  { clear Hy Hlt y. remember (z :: l) as w eqn:Ew. revert z l Ew Hz Hq. induction Hw as [|p q l0 Hw IH Hs]; intros z l [= <- <-] Hz Hq.
    - split; [exact Hf|]. split; [eauto|]. exists x. split; [exact Hx|left; lia].
    - pose proof (step_mono E p q Hc Hs) as Hm. destruct (IH p l0 eq_refl ltac:(lia)) as (F & (v1 & V1) & y1 & Y1 & Y2); [intros g s Hin; apply Hq; right; exact Hin|].
      split; [exact (forks_grow E p q Hs F)|].
      assert (M : loses E (p :: l0) i -> loses E (q :: p :: l0) i).
      { intros (g & s & w & W1 & W2). exists g, s, w. split; [exact W1|]. destruct W2 as [(b & W2 & W3)|[(W2 & W3)|(g' & t & W2 & W3)]].
        - left. exists b. split; [apply block_more; exact W2|exact W3].
        - right. left. split; [apply epoch_more; exact W2|exact W3].
        - right. right. exists g', t. split; [apply passes_more; exact W2|exact W3]. }
      assert (C : forall due : N -> Validator -> Prop, gbal (snd p) due (snd q) -> (due i v1 -> loses E (q :: p :: l0) i) ->
        exists y', nthN (balances (snd q)) i = Some y' /\ (x <= y' \/ loses E (q :: p :: l0) i)).
      { intros due B D. destruct (B i v1 y1 V1 Y1) as (y2 & B1 & B2). exists y2. split; [exact B1|]. destruct Y2 as [Y2|Y2]; [|right; apply M; exact Y2]. destruct B2 as [B2|B2]; [left; lia|right; apply D; exact B2]. }
      destruct Hs as [f s t Hb H|f b s r t H|f g s t H Hne]; cbn [fst snd] in *.
      + destruct (debit_slot E f s t Hc Hk F Hb H) as [D1 D2]. split; [eapply D1; exact V1|]. eapply C; [exact D2|]. intros [D3 D4]. exists f, s, v1. split; [exact V1|]. right. left. split; [|exact D4].
        exists t. split; [apply passes_head|]. auto.
      + split. { pose proof (blk_block E f s b Hc ltac:(lia)) as I. rewrite H in I. cbn [snd] in I. destruct (iv_old _ _ _ _ I i v1 V1) as (v2 & A & _). eauto. }
        assert (Hp : f = Electra -> pending_partial_withdrawals s = []) by (apply Hq; right; left; reflexivity).
        destruct (b_block E f s b Hc ltac:(lia) Hk Hp) as [B _]. rewrite H in B. cbn [snd] in B. apply (C (debit_due E f s b) B). intros D. exists f, s, v1. split; [exact V1|]. left. exists b. split; [|exact D].
        exists r, t. split; [apply passes_head|exact H].
      + destruct (g_call E f g s t Hk H Hne) as [D1 D2]. split; [eapply D1; exact V1|]. eapply C; [exact D2|]. intros D. exists f, s, v1. split; [exact V1|]. right. right. exists g, t. split; [apply passes_head|exact D]. }
  destruct G as (_ & _ & y' & G1 & [G2|G2]); [|exact G2]. rewrite G1 in Hy. injection Hy as ->. lia.
Qed.

(** eight alike validators at the end of an epoch in which 2 missed the target and 3 every vote: in ordinary times both lose and the others gain; in a leak both lose and the
    others keep what they have.  The step is a walk, and 2 and 3 have the cause the theorem names *)
Example C116_example : let t := snd (process_slots tiny Deneb 36 (incentive_toy 7)) in
  ctx_sane tiny /\ chk tiny = true /\ walk tiny (Deneb, incentive_toy 7) [(Deneb, t); (Deneb, incentive_toy 7)] /\ slot t < 2 ^ 64 - 1
  /\ balances (incentive_toy 7) = repeat 32000000000 8
  /\ balances t = [32002561442; 32002008044; 31999130374; 31997470180; 32002561442; 32002561442; 32002561442; 32002561442]
  /\ balances (snd (process_epoch tiny Deneb (incentive_toy 0))) = [32000000000; 32000000000; 31998351326; 31997465889; 32000000000; 32000000000; 32000000000; 32000000000]
  /\ missed_votes tiny (incentive_toy 7) 2 /\ missed_votes tiny (incentive_toy 7) 3 /\ ~ missed_votes tiny (incentive_toy 7) 1.
Proof.
  cbv zeta. split; [exact tiny_sane|]. split; [reflexivity|]. split.
  - apply walk_step; [apply walk_start|]. apply step_slot; [vm_compute; reflexivity|]. change (slot (incentive_toy 7) + 1) with 36.
    assert (H : fst (process_slots tiny Deneb 36 (incentive_toy 7)) = Ok tt) by (vm_compute; reflexivity). rewrite <- H. apply surjective_pairing.
  - split; [vm_compute; reflexivity|]. split; [vm_compute; reflexivity|]. split; [vm_compute; reflexivity|]. split; [vm_compute; reflexivity|].
    split; [split; [vm_compute; reflexivity|right; vm_compute; reflexivity]|]. split; [split; [vm_compute; reflexivity|left; vm_compute; reflexivity]|].
    intros (_ & [H|H]); vm_compute in H; discriminate H.
Qed.

Print Assumptions C116_epoch.
Print Assumptions C116_duty_done.
Print Assumptions C116_slot.
Print Assumptions C116_upgrade.
Print Assumptions C116_every_loss_has_a_cause.
