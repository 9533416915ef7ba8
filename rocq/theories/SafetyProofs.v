(** * Votes, supermajority links and the checkpoints of a chain (proof file; no model definitions) *)
From Verif Require Import Base BaseLemmas Types Ctx Env Helpers HelpersAltair HelpersElectra Block Epoch Transition Upgrade Genesis StLemmas Frame
  SpecCommon SpecShuffle SpecHelpers SpecElectra SpecOps SpecBlock SpecAtt SpecFinality SpecRegistry SpecHistory SpecDuties SpecReach SpecSafety
  HelperProofs HelperProofs2 FrameProofs HistoryProofs SlotProofs AttProofs FinalityProofs LookProofs ReachShape UpgradeProofs SpecEpoch EpochProofs PeriodicProofs VoteProofs PropsFinality.
From Coq Require Import Relations.

Section Votes.
Context (E : Env).
Hypothesis Hchk : chk E = true.
Hypothesis Hc : ctx_sane E.
Hypothesis Ha : ctx_sane_att E.
Hypothesis Hw : hash_wf (hash E).
Hypothesis HL : MIN_SEED_LOOKAHEAD E <= MAX_SEED_LOOKAHEAD E.
Hypothesis HV : MIN_SEED_LOOKAHEAD E + 3 < EPOCHS_PER_HISTORICAL_VECTOR E.

(** [b]: the current epoch, otherwise the previous one *)
Definition eb (b : bool) (s : BeaconState) : N := if b then epoch_of E s else prev_epoch_of E s.
Definition jb (b : bool) (s : BeaconState) : Checkpoint := if b then current_justified_checkpoint s else previous_justified_checkpoint s.

Lemma mul_exact x y z : mul E x y = Ok z -> z = x * y.
Proof. unfold mul, umul. rewrite Hchk. destruct (x * y <? U64); intros H; [apply Ok_inj in H; congruence|discriminate]. Qed.
Lemma block_root_inv s e r : get_block_root E s e = Ok r -> e * SLOTS_PER_EPOCH E < slot s /\ recorded_root E s (e * SLOTS_PER_EPOCH E) = Some r.
Proof.
  intros H. unfold get_block_root, compute_start_slot_at_epoch in H. rinv H. apply mul_exact in H0. subst. unfold get_block_root_at_slot in H.
  destruct (N.leb_spec (slot s) (e * SLOTS_PER_EPOCH E)) as [Hle|Hlt]; cbn [rbind] in H; [rinv H; discriminate|].
  apply rbind_ok_inv in H as (out & Hout & H). destruct out; [rinv H; discriminate|]. split; [exact Hlt|]. rinv H.
  unfold umod in H0. destruct (SLOTS_PER_HISTORICAL_ROOT E =? 0); [discriminate|]. apply Ok_inj in H0. subst. exact H.
Qed.

(** ** what an accepted attestation proves *)
Definition signs (s : BeaconState) (i : N) (ia : IndexedAttestation) : Prop := In i (ia_attesting_indices ia) /\ indexed_valid E s ia.
Lemma flags_inv f s d delay fl : get_attestation_participation_flag_indices E f s d delay = Ok fl ->
  ad_source d = (if cp_epoch (ad_target d) =? epoch_of E s then current_justified_checkpoint s else previous_justified_checkpoint s)
  /\ exists tr, cp_epoch (ad_target d) * SLOTS_PER_EPOCH E < slot s /\ recorded_root E s (cp_epoch (ad_target d) * SLOTS_PER_EPOCH E) = Some tr
     /\ forall k, In k fl -> k = 0 \/ cp_root (ad_target d) = tr.
Proof.
  intros H. unfold get_attestation_participation_flag_indices in H. rewrite (current_epoch_ok E Hc) in H. cbn [rbind] in H. cbn zeta in H.
  unfold Checkpoint_eqb in H. destruct (Checkpoint_eq_dec _ _) as [Hsrc|]; [|discriminate]. cbn [negb] in H. split; [exact Hsrc|].
  apply rbind_ok_inv in H as (tr & Hr & H). apply block_root_inv in Hr as [R1 R2]. exists tr. split; [exact R1|]. split; [exact R2|].
  apply rbind_ok_inv in H as (mh & Hmh & H). apply Ok_inj in H. subst fl. intros k Hk.
  destruct (bytes_eqb (cp_root (ad_target d)) tr) eqn:Hb; [apply bytes_eqb_true in Hb; auto|]. apply Ok_inj in Hmh. subst mh. cbn [andb] in Hk.
  rewrite app_nil_r in Hk. destruct (delay <=? _); cbn [app] in Hk; [destruct Hk as [<-|[]]; left; reflexivity|destruct Hk].
Qed.
Lemma checks_facts f att s b fl is : slot_small s -> attestation_checks E f att s = Ok (b, fl, is) ->
  cp_epoch (ad_target (at_data att)) = eb b s /\ ad_source (at_data att) = jb b s /\ eb b s * SLOTS_PER_EPOCH E < slot s
  /\ (exists tr, recorded_root E s (eb b s * SLOTS_PER_EPOCH E) = Some tr /\ forall k, In k fl -> k = 0 \/ cp_root (ad_target (at_data att)) = tr)
  /\ forall i, In i is -> exists ia, signs s i ia /\ ia_data ia = at_data att.
Proof.
  intros Hs H. unfold attestation_checks in H. cbn zeta in H. set (d := at_data att) in *.
  apply rbind_ok_inv in H as (b' & Hwin & H). apply (window_iff E Hc Ha f d s b' Hs) in Hwin as [(T1 & _) Hb'].
  apply rbind_ok_inv in H as (u & _ & H). apply rbind_ok_inv in H as (delay & _ & H). apply rbind_ok_inv in H as (fl' & Hfl & H).
  apply rbind_ok_inv in H as (ia & Hia & H). apply rbind_ok_inv in H as (u' & Hval & H). apply rbind_ok_inv in H as (is' & His & H).
  apply Ok_inj in H. injection H as <- <- <-. apply flags_inv in Hfl as (Hsrc & tr & R1 & R2 & R3).
  assert (Hte : cp_epoch (ad_target d) = eb b' s).
  { unfold eb. subst b'. destruct (N.eqb_spec (cp_epoch (ad_target d)) (epoch_of E s)) as [He|He]; [exact He|]. destruct T1; [contradiction|assumption]. }
  rewrite Hte in R1, R2. split; [exact Hte|]. split; [rewrite Hsrc, <- Hb'; destruct b'; reflexivity|]. split; [exact R1|].
  split; [exists tr; auto|]. intros i Hi. exists ia.
  assert (Hval' : indexed_valid E s ia) by (destruct u'; apply valid_indexed_iff in Hval; exact Hval).
  assert (Hx : In i (ia_attesting_indices ia) /\ ia_data ia = d).
  { assert (Hg : forall m1 m2, (let! ai := m1 in let sorted := isort ai in if (m2 : N) <? lenN sorted then Err ESimpleSerialize else Ok (mkIndexed sorted d (at_signature att))) = Ok ia ->
      m1 = Ok is' -> In i (ia_attesting_indices ia) /\ ia_data ia = d).
    { intros m1 m2 G1 ->. cbn [rbind] in G1. cbn zeta in G1. destruct (m2 <? _); [discriminate|]. apply Ok_inj in G1. subst ia. cbn [ia_attesting_indices ia_data].
      split; [apply In_isort; exact Hi|reflexivity]. }
    destruct f; (eapply Hg; [exact Hia|exact His]). }
  destruct Hx as [X1 X2]. split; [split; assumption|exact X2].
Qed.
Lemma phase0_facts att s b a : state_shape E s -> slot_small s -> attestation_checks_phase0 E att s = Ok (b, a) ->
  pa_data a = at_data att /\ cp_epoch (ad_target (at_data att)) = eb b s /\ ad_source (at_data att) = jb b s /\ eb b s * SLOTS_PER_EPOCH E < slot s
  /\ forall com k i, is_committee E s (ad_slot (at_data att)) (ad_index (at_data att)) com -> nthN (pa_aggregation_bits a) k = Some true -> nthN com k = Some i ->
       exists ia, signs s i ia /\ ia_data ia = at_data att.
Proof.
  intros Hsh Hs H. assert (Hp : exists p, get_beacon_proposer_index E s = Ok p) by (unfold attestation_checks_phase0 in H; rinv H; eauto).
  destruct Hp as [p Hp]. destruct (proj1 (att_phase0_iff E Hc Hw Ha att s p (b, a) Hsh Hs Hp) H) as [(l & Hv) Heq]. injection Heq as -> ->. cbn [pa_data pa_aggregation_bits].
  destruct Hv as ((T1 & T2 & T3 & _) & _ & Hsrc & (com & C1 & C2 & C3) & _ & Hval). set (d := at_data att) in *.
  assert (Hte : cp_epoch (ad_target d) = eb (cp_epoch (ad_target d) =? epoch_of E s) s).
  { unfold eb. destruct (N.eqb_spec (cp_epoch (ad_target d)) (epoch_of E s)) as [He|He]; [exact He|]. destruct T1; [contradiction|assumption]. }
  split; [reflexivity|]. split; [exact Hte|]. split; [rewrite Hsrc; unfold justified_for, jb; reflexivity|]. rewrite <- Hte. split.
  - rewrite T2. pose proof (N.mul_div_le (ad_slot d) (SLOTS_PER_EPOCH E) ltac:(ctxs Hc; lia)) as Hm. destruct Ha as ((? & _) & _). rewrite N.mul_comm. lia.
  - intros com' k i X1 X2 X3. rewrite (is_committee_fun E _ _ _ _ _ X1 C1) in X3. eexists. split; [split; [|exact Hval]|reflexivity].
    cbn [ia_attesting_indices]. apply C3. eauto.
Qed.

(** ** recorded votes *)
Definition atts (b : bool) (s : BeaconState) : list PendingAttestation := if b then current_epoch_attestations s else previous_epoch_attestations s.
(** the state records a vote of validator [i] for epoch [eb b s]; [k] is the flag (altair on), [r] the target root *)
Definition held (f : Fork) (s : BeaconState) (b : bool) (i k : N) (r : Root) : Prop :=
  match f with
  | Phase0 => exists a com j, In a (atts b s) /\ ad_slot (pa_data a) / SLOTS_PER_EPOCH E = eb b s /\ cp_root (ad_target (pa_data a)) = r
      /\ is_committee E s (ad_slot (pa_data a)) (ad_index (pa_data a)) com /\ nthN (pa_aggregation_bits a) j = Some true /\ nthN com j = Some i
  | _ => exists p, nthN (participation b s) i = Some p /\ N.testbit p k = true /\ recorded_root E s (eb b s * SLOTS_PER_EPOCH E) = Some r
  end.
(** the vote is signed, as state [s] can verify *)
Definition signed (s : BeaconState) (b : bool) (i k : N) (r : Root) : Prop :=
  exists ia, signs s i ia /\ ad_source (ia_data ia) = jb b s /\ cp_epoch (ad_target (ia_data ia)) = eb b s
    /\ (k = 0 \/ cp_root (ad_target (ia_data ia)) = r) /\ eb b s * SLOTS_PER_EPOCH E < slot s.

Lemma small_epoch s : slot s < 2 ^ 56 -> epoch_of E s < FAR_FUTURE_EPOCH.
Proof. intros H. apply (epoch_bound E Hc) in H; [|assumption..]. unfold FAR_FUTURE_EPOCH. pows. lia. Qed.
Lemma eb_le b s : eb b s <= epoch_of E s <= eb b s + 1. Proof. unfold eb, prev_epoch_of. destruct b; lia. Qed.
Lemma held_back f s t b b' i k r : looks E s t -> slot t < 2 ^ 56 -> eb b t = eb b' s -> eb b' s <= epoch_of E s -> epoch_of E t <= eb b' s + 1 ->
  (f = Phase0 -> incl (atts b t) (atts b' s)) ->
  (f <> Phase0 -> recorded_root E t (eb b t * SLOTS_PER_EPOCH E) = recorded_root E s (eb b t * SLOTS_PER_EPOCH E)) ->
  (f <> Phase0 -> forall p, nthN (participation b t) i = Some p -> N.testbit p k = true -> exists q, nthN (participation b' s) i = Some q /\ N.testbit q k = true) ->
  held f t b i k r -> held f s b' i k r.
Proof.
  intros L Hs He Hle Hle2 H0 H1 H2 Hh. pose proof (small_epoch t Hs) as Hf. pose proof (lk_epoch E s t L).
  destruct f; cbn [held] in *.
  { destruct Hh as (a & com & j & A1 & A2 & A3 & A4 & A5 & A6). exists a, com, j. split; [apply H0; auto|]. split; [congruence|]. split; [exact A3|].
    split; [|auto]. refine (proj1 (proj2 (committee_spec_fixed E s t _ _ com L HL ltac:(lia) _ _ _)) A4); rewrite A2, He; [lia|lia|unfold seed_available; lia]. }
  all: destruct Hh as (p & P1 & P2 & P3); destruct (H2 ltac:(discriminate) p P1 P2) as (q & Q1 & Q2); exists q; (split; [exact Q1|split; [exact Q2|]]);
    rewrite <- He, <- H1 by discriminate; exact P3.
Qed.

Lemma signs_later s t i ia : registry_later s t -> fork t = fork s -> genesis_validators_root t = genesis_validators_root s -> signs s i ia -> signs t i ia.
Proof.
  intros HR H1 H2 [Hi (V1 & V2 & pks & dom & root & V3 & V4 & V5)]. split; [exact Hi|]. split; [exact V1|]. split; [exact V2|]. exists pks, dom, root.
  split; [|split; [unfold version_at in *; rewrite H1, H2; exact V4|exact V5]].
  clear - V3 HR. induction V3 as [|x y l l' (v & A1 & A2) _ IH]; constructor; [|exact IH].
  destruct (HR x v A1) as (v' & B1 & (B2 & _) & _). exists v'. split; [exact B1|congruence].
Qed.

(** [t] comes after [s] within a block *)
Record in_block (f : Fork) (s t : BeaconState) : Prop := {
  ib_looks : looks E s t;
  ib_len : lenN (validators s) <= lenN (validators t);
  ib_slot : slot t = slot s;
  ib_roots : block_roots t = block_roots s;
  ib_fork : fork t = fork s;
  ib_gvr : genesis_validators_root t = genesis_validators_root s;
  ib_cur : current_justified_checkpoint t = current_justified_checkpoint s;
  ib_prev : previous_justified_checkpoint t = previous_justified_checkpoint s;
  ib_fin : finalized_checkpoint t = finalized_checkpoint s;
  ib_bits : justification_bits t = justification_bits s;
  ib_reg : registry_later s t;
  ib_sized : vectors_sized E s -> vectors_sized E t;
  ib_votes : vectors_sized E s -> lenN (validators t) <= 2 ^ 40 -> slot t < 2 ^ 56 -> forall b i k r, held f t b i k r -> held f s b i k r \/ signed t b i k r }.
Lemma in_block_refl f s : in_block f s s.
Proof. constructor; auto; [apply looks_refl|lia|apply registry_later_refl]. Qed.
Lemma eb_slot b s t : slot t = slot s -> eb b t = eb b s.
Proof. intros H. unfold eb, prev_epoch_of, epoch_of. rewrite H. reflexivity. Qed.
Lemma in_block_trans f a b c : in_block f a b -> in_block f b c -> in_block f a c.
Proof.
  intros [A1 A2 A3 A4 A5 A6 A7 A8 A9 A10 A11 A12 A13] [B1 B2 B3 B4 B5 B6 B7 B8 B9 B10 B11 B12 B13].
  constructor; try congruence; [eapply looks_trans; eauto|lia|eapply registry_later_trans; eauto|auto|].
  intros Z Hn Hs x i k r Hh. destruct (B13 (A12 Z) Hn Hs x i k r Hh) as [H|H]; [|auto].
  destruct (A13 Z ltac:(lia) ltac:(rewrite <- B3; exact Hs) x i k r H) as [H'|(ia & S1 & S2 & S3 & S4 & S5)]; [auto|]. right. exists ia.
  rewrite (eb_slot x b c B3). split; [eapply signs_later; eauto|]. split; [rewrite S2; unfold jb; rewrite B7, B8; reflexivity|]. rewrite B3. auto.
Qed.
Lemma in_block_prim f s t : prim E f LBlock s t -> in_block f s t.
Proof.
  intros H. assert (Hev : evo E f LBlock s t) by (apply evo_prim; exact H). pose proof (evo_all_of E f LBlock s t Hev) as Hall.
  pose proof (looks_prim E Hchk f LBlock s t H) as L. pose proof (evo_sized E f s t Hall) as Hz.
  destruct (frame_shape E f s t Hall) as (_ & _ & _ & _ & _ & Hlen). destruct (frame_identity E f s t Hall) as (_ & Hgvr & Hfk).
  pose proof (frame_slot E f LBlock s t Hev ltac:(discriminate)) as Hs. destruct (frame_roots E f LBlock s t Hev ltac:(discriminate)) as [Hbr _].
  destruct (frame_finality E f LBlock s t Hev ltac:(discriminate)) as (F1 & F2 & F3 & F4). pose proof (later_prim E f LBlock s t H) as HR.
  assert (Hvotes : vectors_sized E s -> lenN (validators t) <= 2 ^ 40 -> slot t < 2 ^ 56 -> forall b i k r, held f t b i k r -> held f s b i k r \/ signed t b i k r);
    [|constructor; assumption].
  intros Z Hn Hb b i k r Hh.
  assert (Hsh : state_shape E s) by (destruct Z as (? & ? & ? & ? & ?); repeat split; try assumption; lia).
  assert (Hss : slot_small s) by (unfold slot_small; rewrite <- Hs; exact Hb).
  assert (Hlast : forall b0, b0 = b -> (f = Phase0 -> incl (atts b0 t) (atts b0 s)) -> (f <> Phase0 -> forall p, nthN (participation b0 t) i = Some p -> N.testbit p k = true ->
     exists q, nthN (participation b0 s) i = Some q /\ N.testbit q k = true) -> held f s b i k r \/ signed t b i k r).
  { intros b0 -> K1 K2. left. pose proof (eb_slot b s t Hs) as Hee. pose proof (eb_le b s). refine (held_back f s t b b i k r L Hb Hee _ _ _ _ K2 Hh); try lia.
    - unfold epoch_of in *. rewrite Hs. lia.
    - exact K1.
    - intros _. unfold recorded_root. rewrite Hbr. reflexivity. }
  assert (Hput : forall ia, signs s i ia -> ad_source (ia_data ia) = jb b s -> cp_epoch (ad_target (ia_data ia)) = eb b s -> (k = 0 \/ cp_root (ad_target (ia_data ia)) = r) ->
     eb b s * SLOTS_PER_EPOCH E < slot s -> signed t b i k r).
  { intros ia S1 S2 S3 S4 S5. exists ia. rewrite (eb_slot b s t Hs), Hs. split; [eapply signs_later; eauto|]. split; [rewrite S2; unfold jb; rewrite F2, F3; reflexivity|]. auto. }
  clear Hev Hall Hz. revert Hlast Hput Hh. inversion H; subst; intros Hlast Hput Hh;
    try (apply (Hlast b eq_refl); [intros _; unfold atts; gs; apply incl_refl|intros _ q Q1 Q2; exists q; split; [exact Q1|exact Q2]]).
  - apply (Hlast b eq_refl); [intros _; unfold atts, register; destruct (fork_le Altair f), b; gs; apply incl_refl|].
    intros Hf q Q1 Q2. assert (Hle : fork_le Altair f = true) by (destruct f; [contradiction|reflexivity..]).
    assert (Hp : participation b (register f v b0 s) = participation b s ++ [0]) by (unfold participation, register; rewrite Hle; destruct b; reflexivity).
    rewrite Hp in Q1. destruct (N.lt_ge_cases i (lenN (participation b s))) as [Hi|Hi].
    + rewrite nthN_app_l in Q1 by exact Hi. eauto.
    + rewrite nthN_app_r in Q1 by exact Hi. apply nthN_In in Q1. destruct Q1 as [<-|[]]. rewrite N.bits_0 in Q2. discriminate.
  - destruct b; [|apply (Hlast false eq_refl); [intros _; apply incl_refl|intros _ q Q1 Q2; exists q; split; [exact Q1|exact Q2]]].
    destruct f; try (apply (Hlast true eq_refl); [intros Hf; discriminate|intros _ q Q1 Q2; exists q; split; [exact Q1|exact Q2]]).
    destruct Hh as (a' & com & j & A1 & A2 & A3 & A4 & A5 & A6). cbn [atts] in A1. gsh A1. apply in_app_or in A1 as [A1|[<-|[]]].
    + left. exists a', com, j. repeat split; try assumption.
    + right. destruct (phase0_facts att s true a Hsh Hss ltac:(assumption)) as (P1 & P2 & P3 & P4 & P5). rewrite P1 in *.
      destruct (P5 com j i A4 A5 A6) as (ia & I1 & I2). apply (Hput ia I1); rewrite ?I2; auto.
  - destruct b; [apply (Hlast true eq_refl); [intros _; apply incl_refl|intros _ q Q1 Q2; exists q; split; [exact Q1|exact Q2]]|].
    destruct f; try (apply (Hlast false eq_refl); [intros Hf; discriminate|intros _ q Q1 Q2; exists q; split; [exact Q1|exact Q2]]).
    destruct Hh as (a' & com & j & A1 & A2 & A3 & A4 & A5 & A6). cbn [atts] in A1. gsh A1. apply in_app_or in A1 as [A1|[<-|[]]].
    + left. exists a', com, j. repeat split; try assumption.
    + right. destruct (phase0_facts att s false a Hsh Hss ltac:(assumption)) as (P1 & P2 & P3 & P4 & P5). rewrite P1 in *.
      destruct (P5 com j i A4 A5 A6) as (ia & I1 & I2). apply (Hput ia I1); rewrite ?I2; auto.
  - destruct b; [|apply (Hlast false eq_refl); [intros _; apply incl_refl|intros _ q Q1 Q2; exists q; split; [exact Q1|exact Q2]]].
    match goal with Hk : attestation_checks E f att s = Ok _, Hcr : credits _ _ _ _ |- _ =>
      destruct (checks_facts f att s true fl is Hss Hk) as (P1 & P2 & P3 & (tr & P4 & P5) & P6); pose proof (proj2 Hcr) as Hcred end.
    destruct (Fork_eq_dec f Phase0) as [->|Hf]; [apply (Hlast true eq_refl); [intros _; apply incl_refl|contradiction]|].
    assert (Hq : exists q, nthN x i = Some q /\ N.testbit q k = true /\ recorded_root E s (eb true s * SLOTS_PER_EPOCH E) = Some r)
      by (destruct f; [contradiction|..]; destruct Hh as (q & Q1 & Q2 & Q3); exists q; auto).
    destruct Hq as (q & Q1 & Q2 & Q3). destruct (Hcred i q Q1) as (q0 & R1 & R2). destruct (R2 k Q2) as [Hk|[Hi Hk]].
    + left. assert (Hd : exists p, nthN (participation true s) i = Some p /\ N.testbit p k = true /\ recorded_root E s (eb true s * SLOTS_PER_EPOCH E) = Some r) by (exists q0; auto).
      destruct f; [contradiction|exact Hd..].
    + right. destruct (P6 i Hi) as (ia & I1 & I2). assert (tr = r) by congruence. subst tr. apply (Hput ia I1); rewrite ?I2; auto.
  - destruct b; [apply (Hlast true eq_refl); [intros _; apply incl_refl|intros _ q Q1 Q2; exists q; split; [exact Q1|exact Q2]]|].
    match goal with Hk : attestation_checks E f att s = Ok _, Hcr : credits _ _ _ _ |- _ =>
      destruct (checks_facts f att s false fl is Hss Hk) as (P1 & P2 & P3 & (tr & P4 & P5) & P6); pose proof (proj2 Hcr) as Hcred end.
    destruct (Fork_eq_dec f Phase0) as [->|Hf]; [apply (Hlast false eq_refl); [intros _; apply incl_refl|contradiction]|].
    assert (Hq : exists q, nthN x i = Some q /\ N.testbit q k = true /\ recorded_root E s (eb false s * SLOTS_PER_EPOCH E) = Some r)
      by (destruct f; [contradiction|..]; destruct Hh as (q & Q1 & Q2 & Q3); exists q; auto).
    destruct Hq as (q & Q1 & Q2 & Q3). destruct (Hcred i q Q1) as (q0 & R1 & R2). destruct (R2 k Q2) as [Hk|[Hi Hk]].
    + left. assert (Hd : exists p, nthN (participation false s) i = Some p /\ N.testbit p k = true /\ recorded_root E s (eb false s * SLOTS_PER_EPOCH E) = Some r) by (exists q0; auto).
      destruct f; [contradiction|exact Hd..].
    + right. destruct (P6 i Hi) as (ia & I1 & I2). assert (tr = r) by congruence. subst tr. apply (Hput ia I1); rewrite ?I2; auto.
Qed.
Lemma in_block_evo f s t : evo E f LBlock s t -> in_block f s t.
Proof. intros H. induction H as [a b Hp|a|a b c H1 IH1 H2 IH2]; [apply in_block_prim; exact Hp|apply in_block_refl|eapply in_block_trans; eauto]. Qed.
Lemma in_block_block f b s r t : process_block E f b s = (r, t) -> in_block f s t.
Proof. intros H. pose proof (evp_block E f b s) as P. rewrite H in P. apply in_block_evo. exact P. Qed.

(** ** slots *)
(** the fields slot processing leaves alone *)
Record slot_same (s t : BeaconState) : Prop := {
  ss_slot : slot t = slot s;
  ss_validators : validators t = validators s;
  ss_mixes : randao_mixes t = randao_mixes s;
  ss_atts : forall b, atts b t = atts b s;
  ss_part : forall b, participation b t = participation b s;
  ss_just : forall b, jb b t = jb b s;
  ss_fin : finalized_checkpoint t = finalized_checkpoint s;
  ss_bits : justification_bits t = justification_bits s }.
Lemma slot_same_refl s : slot_same s s. Proof. constructor; auto. Qed.
Lemma process_slot_same f s r t : process_slot E f s = (r, t) -> slot_same s t.
Proof.
  intros H. unfold process_slot, sbind, rd, md in H.
  repeat match type of H with context [match ?m with Ok _ => _ | _ => _ end] => destruct m end; injection H as <- <-; gs;
    try apply slot_same_refl; repeat match goal with |- context [if ?c then _ else _] => destruct c end; constructor; gs; try reflexivity; intros []; reflexivity.
Qed.
Lemma advance_in_epoch f s t : slot s + 1 < U64 -> (slot s + 1) mod SLOTS_PER_EPOCH E <> 0 -> advance_slot E f s = (Ok tt, t) ->
  exists s1, slot_same s s1 /\ t = set_slot (slot s + 1) s1 /\ epoch_of E t = epoch_of E s.
Proof.
  intros Hb Hm H. destruct (advance_inv E Hc f s t Hb H) as (s1 & s2 & H1 & S1 & H2 & S2 & ->). destruct (N.eqb_spec ((slot s + 1) mod SLOTS_PER_EPOCH E) 0) as [|_]; [contradiction|].
  subst s2. exists s1. split; [eapply process_slot_same; exact H1|]. rewrite S2. split; [reflexivity|]. unfold epoch_of. gs.
  assert (Hz : SLOTS_PER_EPOCH E <> 0) by (ctxs Hc; lia).
  pose proof (N.div_mod' (slot s + 1) (SLOTS_PER_EPOCH E)) as Hd. pose proof (N.mod_lt (slot s + 1) (SLOTS_PER_EPOCH E) Hz).
  apply (N.div_unique _ _ _ ((slot s + 1) mod SLOTS_PER_EPOCH E - 1)); lia.
Qed.
Lemma boundary_epoch x : (x + 1) mod SLOTS_PER_EPOCH E = 0 ->
  (x + 1) / SLOTS_PER_EPOCH E = x / SLOTS_PER_EPOCH E + 1 /\ x + 1 = (x / SLOTS_PER_EPOCH E + 1) * SLOTS_PER_EPOCH E /\ x mod SLOTS_PER_EPOCH E = SLOTS_PER_EPOCH E - 1.
Proof.
  intros Hm. assert (Hz : SLOTS_PER_EPOCH E <> 0) by (ctxs Hc; lia). pose proof (N.div_mod' (x + 1) (SLOTS_PER_EPOCH E)) as Hd. rewrite Hm in Hd.
  set (q := (x + 1) / SLOTS_PER_EPOCH E) in *. assert (1 <= q) by (destruct (N.eq_dec q 0) as [Hq|]; [rewrite Hq in Hd; lia|lia]).
  assert (Hx : x = SLOTS_PER_EPOCH E * (q - 1) + (SLOTS_PER_EPOCH E - 1)) by (rewrite N.mul_sub_distr_l; assert (SLOTS_PER_EPOCH E * 1 <= SLOTS_PER_EPOCH E * q) by (apply N.mul_le_mono_l; assumption); lia).
  assert (Hq : x / SLOTS_PER_EPOCH E = q - 1) by (symmetry; apply (N.div_unique _ _ _ (SLOTS_PER_EPOCH E - 1)); lia).
  split; [lia|]. split; [rewrite Hq; replace (q - 1 + 1) with q by lia; lia|].
  symmetry. apply (N.mod_unique _ _ (q - 1)); lia.
Qed.
Lemma advance_epoch f s t : ctx_sane_epoch E -> slot s < 2 ^ 56 -> (slot s + 1) mod SLOTS_PER_EPOCH E = 0 -> advance_slot E f s = (Ok tt, t) ->
  exists s1 s2, slot_same s s1 /\ process_slot E f s = (Ok tt, s1) /\ process_epoch E f s1 = (Ok tt, s2) /\ t = set_slot (slot s + 1) s2 /\ epoch_of E t = epoch_of E s + 1
    /\ block_roots s2 = block_roots s1
    /\ (f = Phase0 -> atts false t = atts true s /\ atts true t = [])
    /\ (f <> Phase0 -> participation false t = participation true s /\ participation true t = repeatN 0 (lenN (validators t))).
Proof.
  intros Hce Hb Hm H. assert (Hb' : slot s + 1 < U64) by (rewrite U64_val; pows; lia).
  destruct (advance_inv E Hc f s t Hb' H) as (s1 & s2 & H1 & S1 & H2 & S2 & ->). rewrite Hm in H2. cbn [N.eqb] in H2.
  pose proof (process_slot_same f s _ s1 H1) as HS. exists s1, s2. split; [exact HS|]. split; [exact H1|]. split; [exact H2|]. rewrite S2. split; [reflexivity|].
  destruct (boundary_epoch (slot s) Hm) as (B1 & _ & _). split; [unfold epoch_of; gs; exact B1|]. split; [eapply epoch_roots; exact H2|].
  assert (Hss : slot_small s1) by (unfold slot_small; rewrite S1; exact Hb).
  pose proof (pe_part E f s1 s2 (epoch_periodic E Hc f s1 s2 Hce Hss H2)) as P. pose proof (ss_atts s s1 HS true) as K1. pose proof (ss_part s s1 HS true) as K2.
  cbn [atts participation] in K1, K2. split; intros Hf.
  - subst f. destruct P as [P1 P2]. cbn [atts]. gs. rewrite P1, P2, K1. auto.
  - destruct f; [contradiction|..]; destruct P as [P1 P2]; cbn [participation]; gs; rewrite P1, P2, K2; auto.
Qed.
(** after the first two epochs, the end of an epoch makes the current justified checkpoint the previous one *)
Lemma epoch_prev_justified f s s' : 1 < epoch_of E s -> process_epoch E f s = (Ok tt, s') -> previous_justified_checkpoint s' = current_justified_checkpoint s.
Proof.
  intros He H. rewrite epoch_split in H. apply sbind_ok_inv in H as ([] & m & H1 & H).
  pose proof (evp_tail E f false m) as Ht. rewrite H in Ht. cbn [snd] in Ht. destruct (frame_finality E f _ _ _ Ht ltac:(discriminate)) as (_ & F2 & _). rewrite F2. clear H Ht F2. rename H1 into H.
  unfold process_justification_and_finalization in H. rewrite (run_rd _ _ _ (epoch_of E s)) in H by (apply current_epoch_ok; exact Hc).
  destruct (N.leb_spec (epoch_of E s) (GENESIS_EPOCH + 1)) as [Hle|_]; [unfold GENESIS_EPOCH in Hle; lia|].
  apply sbind_ok_inv in H as (w & t & H1 & H). apply inv_rd in H1 as [_ ->]. unfold weigh_justification_and_finalization in H.
  apply sbind_ok_inv in H as (x1 & t1 & H1 & H). apply inv_rd in H1 as [_ ->].
  apply sbind_ok_inv in H as (x2 & t2 & H1 & H). apply inv_rd in H1 as [_ ->].
  apply sbind_ok_inv in H as (x3 & t3 & H1 & H). apply inv_rd in H1 as [_ ->].
  apply sbind_ok_inv in H as (x4 & t4 & H1 & H). apply inv_rd in H1 as [_ ->].
  rewrite !run_md in H. gsh H. set (s1 := set_justification_bits _ _) in H.
  assert (A : previous_justified_checkpoint s1 = current_justified_checkpoint s) by (unfold s1; gs; reflexivity). clearbody s1.
  apply sbind_ok_inv in H as (y1 & t1 & H1 & H). apply inv_lift in H1 as [_ ->].
  apply sbind_ok_inv in H as (y2 & t2 & H1 & H). apply inv_lift in H1 as [_ ->].
  apply sbind_ok_inv in H as ([] & s2 & H1 & H).
  assert (A2 : previous_justified_checkpoint s2 = current_justified_checkpoint s).
  { destruct (y2 <=? y1); cbn [swhen] in H1; [apply justify_moves in H1 as (_ & B & _); congruence|apply inv_ret in H1 as [_ ->]; exact A]. }
  clear A H1. apply sbind_ok_inv in H as (y3 & t3 & H1 & H). apply inv_lift in H1 as [_ ->].
  apply sbind_ok_inv in H as (y4 & t4 & H1 & H). apply inv_lift in H1 as [_ ->].
  apply sbind_ok_inv in H as ([] & s3 & H1 & H).
  assert (A3 : previous_justified_checkpoint s3 = current_justified_checkpoint s).
  { destruct (y4 <=? y3); cbn [swhen] in H1; [apply justify_moves in H1 as (_ & B & _); congruence|apply inv_ret in H1 as [_ ->]; exact A2]. }
  apply sbind_ok_inv in H as ([] & s4 & H4 & H). apply finalize_moves in H4 as (_ & B2 & _).
  apply sbind_ok_inv in H as ([] & s5 & H5 & H). apply finalize_moves in H5 as (_ & C2 & _).
  apply sbind_ok_inv in H as ([] & s6 & H6 & H). apply finalize_moves in H6 as (_ & D2 & _).
  apply finalize_moves in H as (_ & F2 & _). congruence.
Qed.
Lemma epoch_early f s s' : epoch_of E s <= 1 -> process_epoch E f s = (Ok tt, s') ->
  previous_justified_checkpoint s' = previous_justified_checkpoint s /\ current_justified_checkpoint s' = current_justified_checkpoint s.
Proof.
  intros He H. rewrite epoch_split in H. apply sbind_ok_inv in H as ([] & m & H1 & H).
  pose proof (evp_tail E f false m) as Ht. rewrite H in Ht. cbn [snd] in Ht. destruct (frame_finality E f _ _ _ Ht ltac:(discriminate)) as (_ & F2 & F3 & _). rewrite F2, F3.
  unfold process_justification_and_finalization in H1. rewrite (run_rd _ _ _ (epoch_of E s)) in H1 by (apply current_epoch_ok; exact Hc).
  destruct (N.leb_spec (epoch_of E s) (GENESIS_EPOCH + 1)) as [_|Hgt]; [|unfold GENESIS_EPOCH in Hgt; lia]. apply inv_ret in H1 as [_ ->]. auto.
Qed.
End Votes.
