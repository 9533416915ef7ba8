(** * C102: votes of two thirds of the stake finalize *)
From Verif Require Import Base BaseLemmas Types Ctx Env Presets Helpers HelpersAltair Block Epoch Transition Upgrade Genesis StLemmas
  SpecCommon SpecShuffle SpecHelpers SpecElectra SpecOps SpecAtt SpecFinality SpecEpoch SpecDuties SpecReach SpecSafety SpecLive
  HelperProofs HelperProofs2 HistoryProofs FinalityProofs VoteProofs PropsFinality PropsVotes SafetyProofs SafetyChain PropsSafety LiveProofs ToyCtx Toy Toy2 ToyPairCtx ToyPair.
From Coq Require Import Relations.

(** a state of a chain, of realistic size *)
Definition realistic_on (E : Env) (f : Fork) (s : BeaconState) : Prop :=
  on_chain E f s /\ lenN (validators s) <= 2 ^ 40 /\ slot s < 2 ^ 56 /\ stake_fits s.

(** at the end of an epoch of a chain the justified and finalized checkpoints change exactly by the textbook rules, and whether an epoch gets justified
    is decided by the votes recorded until then *)
Theorem C102_epoch_end : forall (E : Env) (f : Fork) (s t : BeaconState),
  safety_config E -> realistic_on E f s -> epoch_ends E f s t -> 1 < epoch_of E s ->
  exists sp sc : bool, (sp = true <-> backed E f s (prev_epoch_of E s)) /\ (sc = true <-> backed E f s (epoch_of E s))
    /\ let b := bits_after (justification_bits s) sp sc in
       justification_bits t = b /\ previous_justified_checkpoint t = current_justified_checkpoint s
       /\ current_justified_checkpoint t = justified_after E s sp sc /\ finalized_checkpoint t = finalized_after E s b /\ epoch_of E t = epoch_of E s + 1.
Proof. intros E f s t [C1 C2 C3 C4 C5 C6 C7] (R1 & R2 & R3 & R4) He H1. apply (chain_epoch_end E C1 C2 C3 C4 C5 C6 C7 f s t); assumption. Qed.
(** between the ends of epochs nothing moves them: no block, valid or not, no slot, no upgrade *)
Theorem C102_within_epoch : forall (E : Env) (f g : Fork) (t s : BeaconState), safety_config E -> same_epoch E f t g s ->
  justification_bits s = justification_bits t /\ previous_justified_checkpoint s = previous_justified_checkpoint t
  /\ current_justified_checkpoint s = current_justified_checkpoint t /\ finalized_checkpoint s = finalized_checkpoint t.
Proof. intros E f g t s [C1 C2 C3 C4 C5 C6 C7] H. exact (same_epoch_finality E C1 C2 C3 C5 C6 C7 f t g s H). Qed.

Lemma bits_four (E : Env) f s : realistic_on E f s -> exists b0 b1 b2 b3, justification_bits s = [b0; b1; b2; b3].
Proof. intros (R1 & R2 & _). apply four_bits. apply (on_chain_shape E f s R1 R2). Qed.

(** two epochs in a row whose votes arrive in time finalize the first *)
Theorem C102_timely_votes_finalize : forall (E : Env) (f g : Fork) (s1 t1 s2 t2 : BeaconState),
  safety_config E -> realistic_on E f s1 -> realistic_on E g s2 -> 1 < epoch_of E s1 ->
  epoch_ends E f s1 t1 -> same_epoch E f t1 g s2 -> epoch_ends E g s2 t2 ->
  backed E f s1 (epoch_of E s1) -> backed E g s2 (epoch_of E s2) ->
  current_justified_checkpoint t1 = checkpoint_of E s1 (epoch_of E s1)
  /\ finalized_checkpoint t2 = checkpoint_of E s1 (epoch_of E s1) /\ current_justified_checkpoint t2 = checkpoint_of E s2 (epoch_of E s2).
Proof.
  intros E f g s1 t1 s2 t2 Hcfg R1 R2 H1 E1 W E2 B1 B2.
  destruct (C102_epoch_end E f s1 t1 Hcfg R1 E1 H1) as (sp1 & sc1 & _ & X1 & P1 & _ & P3 & _ & P5). destruct (C102_within_epoch E f g t1 s2 Hcfg W) as (Q1 & _ & Q3 & _).
  assert (He : epoch_of E s2 = epoch_of E s1 + 1) by (destruct W as [_ ->]; exact P5).
  destruct (C102_epoch_end E g s2 t2 Hcfg R2 E2 ltac:(clear - H1 He; lia)) as (sp2 & sc2 & _ & X2 & _ & _ & P3' & P4' & _).
  apply X1 in B1. apply X2 in B2. subst sc1 sc2. destruct (bits_four E f s1 R1) as (b0 & b1 & b2 & b3 & Hb).
  unfold justified_after in P3, P3'. split; [exact P3|]. split; [|exact P3']. rewrite P4', Q1, P1, Hb. unfold finalized_after. cbn [bits_after nth].
  rewrite orb_true_r. cbn [andb]. rewrite Q3, P3. cbn [cp_epoch checkpoint_of]. rewrite He, N.eqb_refl. reflexivity.
Qed.

(** three epochs in a row whose votes all arrive an epoch late (or earlier): the first of the three is finalized, or a later one *)
Theorem C102_late_votes_finalize : forall (E : Env) (f g h : Fork) (s1 t1 s2 t2 s3 t3 : BeaconState) (e : N),
  safety_config E -> realistic_on E f s1 -> realistic_on E g s2 -> realistic_on E h s3 -> epoch_of E s1 = e + 1 -> 1 <= e ->
  epoch_ends E f s1 t1 -> same_epoch E f t1 g s2 -> epoch_ends E g s2 t2 -> same_epoch E g t2 h s3 -> epoch_ends E h s3 t3 ->
  backed E f s1 e -> backed E g s2 (e + 1) -> backed E h s3 (e + 2) ->
  e <= cp_epoch (finalized_checkpoint t3).
Proof.
  intros E f g h s1 t1 s2 t2 s3 t3 e Hcfg R1 R2 R3 He1 He E1 W1 E2 W2 E3 B1 B2 B3.
  destruct (C102_epoch_end E f s1 t1 Hcfg R1 E1 ltac:(clear - He1 He; lia)) as (sp1 & sc1 & X1 & _ & P1 & P2 & P3 & P4 & P5).
  destruct (C102_within_epoch E f g t1 s2 Hcfg W1) as (Q1 & Q2 & Q3 & Q4).
  assert (He2 : epoch_of E s2 = e + 2) by (destruct W1 as [_ ->]; clear - P5 He1; lia).
  destruct (C102_epoch_end E g s2 t2 Hcfg R2 E2 ltac:(clear - He2; lia)) as (sp2 & sc2 & X2 & _ & P1' & P2' & P3' & P4' & P5').
  destruct (C102_within_epoch E g h t2 s3 Hcfg W2) as (Q1' & Q2' & Q3' & Q4').
  assert (He3 : epoch_of E s3 = e + 3) by (destruct W2 as [_ ->]; clear - P5' He2; lia).
  destruct (C102_epoch_end E h s3 t3 Hcfg R3 E3 ltac:(clear - He3; lia)) as (sp3 & sc3 & X3 & _ & P1'' & P2'' & P3'' & P4'' & _).
  unfold prev_epoch_of in X1, X2, X3. rewrite He1 in X1. rewrite He2 in X2. rewrite He3 in X3.
  replace (e + 1 - 1) with e in X1 by (clear; lia). replace (e + 2 - 1) with (e + 1) in X2 by (clear; lia). replace (e + 3 - 1) with (e + 2) in X3 by (clear; lia).
  apply X1 in B1. apply X2 in B2. apply X3 in B3. subst sp1 sp2 sp3. clear X1 X2 X3.
  destruct (bits_four E f s1 R1) as (b0 & b1 & b2 & b3 & Hb). rewrite Hb in *. cbn [bits_after orb] in P1, P4.
  rewrite Q1, P1 in P1', P4'. cbn [bits_after orb] in P1', P4'. rewrite Q1', P1' in P4''. cbn [bits_after orb] in P4''.
  assert (Hp1 : prev_epoch_of E s1 = e) by (unfold prev_epoch_of; rewrite He1; clear; lia).
  assert (Hp2 : prev_epoch_of E s2 = e + 1) by (unfold prev_epoch_of; rewrite He2; clear; lia).
  (* the justified epochs *)
  assert (J1 : cp_epoch (current_justified_checkpoint s2) = if sc1 then e + 1 else e) by (rewrite Q3, P3; unfold justified_after; rewrite Hp1, He1; destruct sc1; reflexivity).
  assert (J2 : cp_epoch (current_justified_checkpoint s3) = if sc2 then e + 2 else e + 1) by (rewrite Q3', P3'; unfold justified_after; rewrite Hp2, He2; destruct sc2; reflexivity).
  assert (J3 : cp_epoch (previous_justified_checkpoint s3) = if sc1 then e + 1 else e) by (rewrite Q2', P2'; exact J1).
  (* finalized at the end of the second epoch *)
  assert (F2 : sc2 = true -> e <= cp_epoch (finalized_checkpoint s3)).
  { intros ->. rewrite Q4', P4'. unfold finalized_after. cbn [nth andb]. rewrite He2.
    destruct (N.eqb_spec (cp_epoch (current_justified_checkpoint s2) + 1) (e + 2)) as [X|X]; [clear - X; lia|].
    destruct (N.eqb_spec (cp_epoch (current_justified_checkpoint s2) + 2) (e + 2)) as [Y|Y]; [clear - Y; lia|]. exfalso. rewrite J1 in X, Y. clear - X Y. destruct sc1; lia. }
  rewrite P4''. unfold finalized_after. cbn [nth]. rewrite He3.
  destruct (sc3 && true && (cp_epoch (current_justified_checkpoint s3) + 1 =? e + 3)) eqn:K1; [rewrite J2; clear; destruct sc2; lia|].
  destruct (sc3 && true && true && (cp_epoch (current_justified_checkpoint s3) + 2 =? e + 3)) eqn:K2; [rewrite J2; clear; destruct sc2; lia|]. cbn [andb].
  destruct (N.eqb_spec (cp_epoch (previous_justified_checkpoint s3) + 2) (e + 3)) as [X|X]; [clear - X; lia|].
  destruct (N.eqb_spec (cp_epoch (previous_justified_checkpoint s3) + 3) (e + 3)) as [Y|Y]; [clear - Y; lia|].
  exfalso. rewrite J3 in X, Y. clear - X Y. destruct sc1; lia.
Qed.

(** ** Examples *)
Lemma quad_config : safety_config quad_env.
Proof.
  constructor; [reflexivity|exact quad_sane|exact quad_sane_att|vm_compute; repeat split; congruence|exact pair_hash_wf|split; vm_compute; congruence|discriminate].
Qed.
Lemma pair_chain (E : Env) n f s es : ctx_sane E -> fst (pair_run E n f true [s] es) = true -> SpecFinality.chain E (f, s) (f, pair_after E n f s es).
Proof.
  intros Hc H. pose proof (pair_walk E n f (f, s) es true [s] (walk_start E (f, s)) H) as Hw. unfold pair_after.
  destruct (snd (pair_run E n f true [s] es)) as [|z l]; [apply rt_refl|]. apply (walk_chain E Hc (f, s) _ Hw (f, z)). left. reflexivity.
Qed.
Lemma chain_on (E : Env) f g s t : on_chain E f s -> SpecFinality.chain E (f, s) (g, t) -> on_chain E g t.
Proof. intros (f0 & bh & ts & ds & h & s0 & Hg & H) H2. exists f0, bh, ts, ds, h, s0. split; [exact Hg|]. eapply rt_trans; eauto. Qed.
Definition small_check (s : BeaconState) : bool :=
  (lenN (validators s) <=? 2 ^ 40) && (slot s <? 2 ^ 56) && (sumN (map v_effective_balance (validators s)) <? 2 ^ 62).
Lemma small_ok (E : Env) f s : on_chain E f s -> small_check s = true -> realistic_on E f s.
Proof.
  intros Ho H. apply andb_prop in H as [H H3]. apply andb_prop in H as [H1 H2]. apply N.leb_le in H1. apply N.ltb_lt in H2, H3. repeat split; assumption.
Qed.
Definition ends_check (E : Env) n f (s : BeaconState) : bool := ((slot s + 1) mod SLOTS_PER_EPOCH E =? 0) && fst (pair_next E n f Slot s).
Lemma ends_ok (E : Env) n f s : ends_check E n f s = true -> epoch_ends E f s (pair_after E n f s [Slot]).
Proof.
  intros H. apply andb_prop in H as [H1 H2]. apply N.eqb_eq in H1. split; [exact H1|]. unfold pair_after. cbn [pair_run]. destruct (pair_next E n f Slot s) as [b t] eqn:Hn.
  cbn [fst] in H2. subst b. cbn [andb snd hd]. unfold pair_next in Hn. destruct (process_slots E f (slot s + 1) s) as [r x]. injection Hn as Hr ->. destruct r as [[]| | |]; [reflexivity|discriminate..].
Qed.
(** altair, four validators: three of the four votes of epochs 2 and 3 arrive in time *)
Definition quad_s1 : BeaconState := pair_after quad_env 4 Altair (pair_genesis quad_env 4 Altair) [Slot; Slot; Slot; Slot; Slot; Slot; Slot; Slot; Slot; Slot; Slot; Blk [8; 9; 10]].
Definition quad_t1 : BeaconState := pair_after quad_env 4 Altair quad_s1 [Slot].
Definition quad_s2 : BeaconState := pair_after quad_env 4 Altair quad_t1 [Slot; Slot; Slot; Blk [12; 13; 14]].
Definition quad_t2 : BeaconState := pair_after quad_env 4 Altair quad_s2 [Slot].
Lemma backed_now (E : Env) f s t : safety_config E -> realistic_on E f s -> epoch_ends E f s t -> 1 < epoch_of E s ->
  cp_epoch (current_justified_checkpoint t) = epoch_of E s -> cp_epoch (current_justified_checkpoint s) < epoch_of E s -> backed E f s (epoch_of E s).
Proof.
  intros Hcfg R He H1 H2 H3. destruct (C102_epoch_end E f s t Hcfg R He H1) as (sp & sc & _ & X & _ & _ & P & _). apply X. rewrite P in H2. unfold justified_after in H2.
  destruct sc; [reflexivity|]. exfalso. destruct sp; [cbn [cp_epoch checkpoint_of] in H2; unfold prev_epoch_of in H2|]; lia.
Qed.
Lemma backed_late (E : Env) f s t e : safety_config E -> realistic_on E f s -> epoch_ends E f s t -> epoch_of E s = e + 1 -> 1 <= e ->
  cp_epoch (current_justified_checkpoint t) = e -> cp_epoch (current_justified_checkpoint s) < e -> backed E f s e.
Proof.
  intros Hcfg R He H0 H1 H2 H3. destruct (C102_epoch_end E f s t Hcfg R He ltac:(lia)) as (sp & sc & X & _ & _ & _ & P & _).
  assert (Hp : prev_epoch_of E s = e) by (unfold prev_epoch_of; lia). rewrite Hp in X. apply X. rewrite P in H2. unfold justified_after in H2.
  destruct sc; [exfalso; cbn [cp_epoch checkpoint_of] in H2; lia|]. destruct sp; [reflexivity|]. exfalso. lia.
Qed.
Example C102_timely_example : safety_config quad_env /\ realistic_on quad_env Altair quad_s1 /\ realistic_on quad_env Altair quad_s2 /\ 1 < epoch_of quad_env quad_s1
  /\ epoch_ends quad_env Altair quad_s1 quad_t1 /\ same_epoch quad_env Altair quad_t1 Altair quad_s2 /\ epoch_ends quad_env Altair quad_s2 quad_t2
  /\ backed quad_env Altair quad_s1 (epoch_of quad_env quad_s1) /\ backed quad_env Altair quad_s2 (epoch_of quad_env quad_s2)
  /\ cp_epoch (finalized_checkpoint quad_t2) = 2.
Proof.
  assert (Hg : match initialize_beacon_state_from_eth1 quad_env Altair zero32 5 (pair_deposits 4) None with Ok _ => true | _ => false end = true) by (vm_compute; reflexivity).
  assert (H1 : SpecFinality.chain quad_env (Altair, pair_genesis quad_env 4 Altair) (Altair, quad_s1)) by (unfold quad_s1; apply pair_chain; [exact quad_sane|vm_compute; reflexivity]).
  assert (H2 : SpecFinality.chain quad_env (Altair, quad_s1) (Altair, quad_t1)) by (unfold quad_t1; apply pair_chain; [exact quad_sane|vm_compute; reflexivity]).
  assert (H3 : SpecFinality.chain quad_env (Altair, quad_t1) (Altair, quad_s2)) by (unfold quad_s2; apply pair_chain; [exact quad_sane|vm_compute; reflexivity]).
  assert (O0 : on_chain quad_env Altair (pair_genesis quad_env 4 Altair)).
  { exists Altair, zero32, 5, (pair_deposits 4), None, (pair_genesis quad_env 4 Altair). split; [|apply rt_refl]. unfold pair_genesis.
    destruct (initialize_beacon_state_from_eth1 quad_env Altair zero32 5 (pair_deposits 4) None); [reflexivity|discriminate..]. }
  pose proof (chain_on _ _ _ _ _ O0 H1) as O1. pose proof (chain_on _ _ _ _ _ (chain_on _ _ _ _ _ O1 H2) H3) as O2.
  assert (R1 : realistic_on quad_env Altair quad_s1) by (apply small_ok; [exact O1|vm_compute; reflexivity]).
  assert (R2 : realistic_on quad_env Altair quad_s2) by (apply small_ok; [exact O2|vm_compute; reflexivity]).
  assert (E1 : epoch_ends quad_env Altair quad_s1 quad_t1) by (unfold quad_t1; apply ends_ok; vm_compute; reflexivity).
  assert (E2 : epoch_ends quad_env Altair quad_s2 quad_t2) by (unfold quad_t2; apply ends_ok; vm_compute; reflexivity).
  assert (L1 : 1 < epoch_of quad_env quad_s1) by (vm_compute; reflexivity). assert (L2 : 1 < epoch_of quad_env quad_s2) by (vm_compute; reflexivity).
  split; [exact quad_config|]. split; [exact R1|]. split; [exact R2|]. split; [exact L1|]. split; [exact E1|].
  split; [split; [exact H3|vm_compute; reflexivity]|]. split; [exact E2|].
  split; [apply (backed_now quad_env Altair quad_s1 quad_t1 quad_config R1 E1 L1); vm_compute; reflexivity|].
  split; [apply (backed_now quad_env Altair quad_s2 quad_t2 quad_config R2 E2 L2); vm_compute; reflexivity|]. vm_compute. reflexivity.
Qed.
(** phase0, one validator, whose votes always arrive an epoch late *)
Definition late_s1 : BeaconState := pair_after pair_env 1 Phase0 pair_start [Slot; Slot; Slot; Slot; Blk [3]; Slot].
Definition late_t1 : BeaconState := pair_after pair_env 1 Phase0 late_s1 [Slot].
Definition late_s2 : BeaconState := pair_after pair_env 1 Phase0 late_t1 [Blk [5]; Slot].
Definition late_t2 : BeaconState := pair_after pair_env 1 Phase0 late_s2 [Slot].
Definition late_s3 : BeaconState := pair_after pair_env 1 Phase0 late_t2 [Blk [7]; Slot].
Definition late_t3 : BeaconState := pair_after pair_env 1 Phase0 late_s3 [Slot].
Example C102_late_example : safety_config pair_env /\ realistic_on pair_env Phase0 late_s1 /\ realistic_on pair_env Phase0 late_s2 /\ realistic_on pair_env Phase0 late_s3
  /\ epoch_of pair_env late_s1 = 1 + 1
  /\ epoch_ends pair_env Phase0 late_s1 late_t1 /\ same_epoch pair_env Phase0 late_t1 Phase0 late_s2 /\ epoch_ends pair_env Phase0 late_s2 late_t2
  /\ same_epoch pair_env Phase0 late_t2 Phase0 late_s3 /\ epoch_ends pair_env Phase0 late_s3 late_t3
  /\ backed pair_env Phase0 late_s1 1 /\ backed pair_env Phase0 late_s2 (1 + 1) /\ backed pair_env Phase0 late_s3 (1 + 2)
  /\ cp_epoch (finalized_checkpoint late_t3) = 1.
Proof.
  assert (H1 : SpecFinality.chain pair_env (Phase0, pair_start) (Phase0, late_s1)) by (unfold late_s1; apply pair_chain; [exact pair_sane|vm_compute; reflexivity]).
  assert (H2 : SpecFinality.chain pair_env (Phase0, late_s1) (Phase0, late_t1)) by (unfold late_t1; apply pair_chain; [exact pair_sane|vm_compute; reflexivity]).
  assert (H3 : SpecFinality.chain pair_env (Phase0, late_t1) (Phase0, late_s2)) by (unfold late_s2; apply pair_chain; [exact pair_sane|vm_compute; reflexivity]).
  assert (H4 : SpecFinality.chain pair_env (Phase0, late_s2) (Phase0, late_t2)) by (unfold late_t2; apply pair_chain; [exact pair_sane|vm_compute; reflexivity]).
  assert (H5 : SpecFinality.chain pair_env (Phase0, late_t2) (Phase0, late_s3)) by (unfold late_s3; apply pair_chain; [exact pair_sane|vm_compute; reflexivity]).
  assert (O0 : on_chain pair_env Phase0 pair_start).
  { exists Phase0, zero32, 5, (pair_deposits 1), None, pair_start. split; [exact (pair_initial Phase0 (or_introl eq_refl))|apply rt_refl]. }
  pose proof (chain_on _ _ _ _ _ O0 H1) as O1. pose proof (chain_on _ _ _ _ _ (chain_on _ _ _ _ _ O1 H2) H3) as O2. pose proof (chain_on _ _ _ _ _ (chain_on _ _ _ _ _ O2 H4) H5) as O3.
  assert (R1 : realistic_on pair_env Phase0 late_s1) by (apply small_ok; [exact O1|vm_compute; reflexivity]).
  assert (R2 : realistic_on pair_env Phase0 late_s2) by (apply small_ok; [exact O2|vm_compute; reflexivity]).
  assert (R3 : realistic_on pair_env Phase0 late_s3) by (apply small_ok; [exact O3|vm_compute; reflexivity]).
  assert (E1 : epoch_ends pair_env Phase0 late_s1 late_t1) by (unfold late_t1; apply ends_ok; vm_compute; reflexivity).
  assert (E2 : epoch_ends pair_env Phase0 late_s2 late_t2) by (unfold late_t2; apply ends_ok; vm_compute; reflexivity).
  assert (E3 : epoch_ends pair_env Phase0 late_s3 late_t3) by (unfold late_t3; apply ends_ok; vm_compute; reflexivity).
  split; [exact pair_config|]. split; [exact R1|]. split; [exact R2|]. split; [exact R3|]. split; [vm_compute; reflexivity|].
  split; [exact E1|]. split; [split; [exact H3|vm_compute; reflexivity]|]. split; [exact E2|]. split; [split; [exact H5|vm_compute; reflexivity]|]. split; [exact E3|].
  split; [apply (backed_late pair_env Phase0 late_s1 late_t1 1 pair_config R1 E1); vm_compute; congruence|].
  split; [apply (backed_late pair_env Phase0 late_s2 late_t2 2 pair_config R2 E2); vm_compute; congruence|].
  split; [apply (backed_late pair_env Phase0 late_s3 late_t3 3 pair_config R3 E3); vm_compute; congruence|]. vm_compute. reflexivity.
Qed.

Print Assumptions C102_epoch_end.
Print Assumptions C102_within_epoch.
Print Assumptions C102_timely_votes_finalize.
Print Assumptions C102_late_votes_finalize.
