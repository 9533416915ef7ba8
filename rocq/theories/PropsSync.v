(** * C105: sync committees are announced a whole period ahead *)
From Verif Require Import Base BaseLemmas Types Ctx Env Presets Helpers HelpersAltair HelpersElectra Block Epoch Transition Upgrade Genesis StLemmas
  SpecCommon SpecRegistry SpecHelpers SpecElectra SpecOps SpecAtt SpecFlow SpecEpoch SpecSlots SpecHistory SpecFinality SpecSafety SpecReach SpecSync
  Frame FrameProofs HelperProofs HelperProofs2 HistoryProofs EpochProofs FinalityProofs FlowProofs SlotProofs VoteProofs PropsVotes PropsSlots PropsEpoch PropsUpgrade PropsReach SafetyProofs SafetyChain
  Toy Toy2 ToyPairCtx ToyPair PropsSafety PropsArchive.

Section Sync.
Context (E : Env).
Hypothesis Hc : ctx_sane E.
(** ** blocks *)
Definition ssame (s t : BeaconState) : Prop :=
  current_sync_committee t = current_sync_committee s /\ next_sync_committee t = next_sync_committee s /\ slot t = slot s /\ block_roots t = block_roots s
  /\ fork t = fork s /\ genesis_validators_root t = genesis_validators_root s.
Lemma ss_refl s : ssame s s. Proof. repeat split. Qed.
Lemma ss_trans a b c : ssame a b -> ssame b c -> ssame a c.
Proof. intros (A1 & A2 & A3 & A4 & A5 & A6) (B1 & B2 & B3 & B4 & B5 & B6). repeat split; congruence. Qed.
Lemma frame_sync f l s t : evo E f l s t -> (forall fin, l <> LEpoch fin) -> current_sync_committee t = current_sync_committee s /\ next_sync_committee t = next_sync_committee s.
Proof.
  intros H Hl. induction H as [a b Hp|a|a b c H1 IH1 H2 IH2]; [|split; reflexivity|destruct IH1, IH2; split; congruence].
  inversion Hp; subst; gs; try (split; reflexivity); try (exfalso; eapply Hl; reflexivity).
  unfold register. destruct (fork_le Altair f); gs; split; reflexivity.
Qed.
Lemma ss_evo f s t : evo E f LBlock s t -> ssame s t.
Proof.
  intros P. destruct (frame_sync f _ _ _ P) as [A1 A2]; [discriminate|]. destruct (frame_roots E f LBlock s _ P ltac:(discriminate)) as [A3 _].
  destruct (frame_identity E f s _ (evo_all_of E f LBlock s _ P)) as (_ & A4 & A5). pose proof (frame_slot E f LBlock _ _ P ltac:(discriminate)). repeat split; assumption.
Qed.
Lemma ss_block {A} f (m : St BeaconState A) : evp E f LBlock m -> pres ssame m.
Proof.
  intros P s. apply (ss_evo f). apply P.
Qed.
(** ** upgrades *)
Definition usame (s t : BeaconState) : Prop :=
  current_sync_committee t = current_sync_committee s /\ next_sync_committee t = next_sync_committee s /\ slot t = slot s.
Lemma us_refl s : usame s s. Proof. repeat split. Qed.
Lemma us_trans a b c : usame a b -> usame b c -> usame a c.
Proof. intros (A1 & A2 & A3) (B1 & B2 & B3). repeat split; congruence. Qed.
Lemma us_mod i g : pres usame (mod_validator i g).
Proof. intros s. unfold mod_validator, sbind, rd, md. destruct (idx _ _); cbn [snd]; try apply us_refl. repeat split. Qed.
Lemma us_finish : pres usame (electra_finish E).
Proof.
  unfold electra_finish, queue_entire_balance_and_reset_validator, queue_excess_active_balance.
  repeat first [apply pres_bind; [exact us_trans| |intros] | apply pres_rd; exact us_refl | apply pres_lift; exact us_refl
    | apply pres_for; [exact us_refl|exact us_trans|intros] | apply us_mod | apply pres_if | apply pres_ret; exact us_refl
    | apply pres_md; intros; repeat split].
Qed.
Lemma upgrade_sync f g s t : chain_call E (f, s) (g, t) -> f <> g -> f <> Phase0 -> usame s t /\ g <> Phase0.
Proof.
  intros C Hne P. inversion C; subst; try contradiction; (split; [|discriminate]).
  - match goal with U : upgrade_to_bellatrix _ _ = _ |- _ => unfold upgrade_to_bellatrix in U; apply rbind_ok_inv in U as (e & _ & U); apply Ok_inj in U; subst end. unfold usame. gs. auto.
  - match goal with U : upgrade_to_capella _ _ = _ |- _ => unfold upgrade_to_capella in U; apply rbind_ok_inv in U as (e & _ & U); cbv zeta in U; apply Ok_inj in U; subst end. unfold usame. gs. auto.
  - match goal with U : upgrade_to_deneb _ _ = _ |- _ => unfold upgrade_to_deneb in U; apply rbind_ok_inv in U as (e & _ & U); cbv zeta in U; apply Ok_inj in U; subst end. unfold usame. gs. auto.
  - match goal with U : upgrade_to_electra _ _ = _ |- _ => rename U into U0 end.
    unfold upgrade_to_electra in U0. apply rbind_ok_inv in U0 as (e & _ & U0). apply rbind_ok_inv in U0 as (ee & _ & U0). apply rbind_ok_inv in U0 as (ec & _ & U0).
    pose proof (us_finish (electra_base E e ee ec s)) as Hp. destruct (electra_finish E _) as [r post]. apply rbind_ok_inv in U0 as (u & _ & U0). apply Ok_inj in U0. subst t.
    cbn [snd] in Hp. eapply us_trans; [|exact Hp]. repeat split.
Qed.
(** ** slots *)
Hypothesis He : ctx_sane_epoch E.
Definition moved (s t : BeaconState) : Prop :=
  (sync_period E t = sync_period E s /\ current_sync_committee t = current_sync_committee s /\ next_sync_committee t = next_sync_committee s)
  \/ (sync_period E t = sync_period E s + 1 /\ current_sync_committee t = next_sync_committee s).
Lemma mid x d : d <> 0 -> (x + 1) mod d <> 0 -> (x + 1) / d = x / d.
Proof.
  intros Hd H. pose proof (N.div_mod' (x + 1) d) as X. pose proof (N.mod_lt (x + 1) d Hd). apply (N.div_unique x d _ ((x + 1) mod d - 1)); lia.
Qed.
Lemma stop x d : d <> 0 -> (x + 1) mod d = 0 -> (x + 1) / d = x / d + 1.
Proof.
  clear. intros Hd H. pose proof (N.div_mod' (x + 1) d) as X. rewrite H, N.add_0_r in X.
  set (q := (x + 1) / d) in *. assert (1 <= q) by (destruct (N.eq_dec q 0) as [Hq|]; [rewrite Hq in X; lia|lia]).
  assert (Y : x / d = q - 1); [|lia]. symmetry. apply (N.div_unique _ _ _ (d - 1)); [lia|]. rewrite N.mul_sub_distr_l.
  assert (d * 1 <= d * q) by (apply N.mul_le_mono_l; assumption). lia.
Qed.
Lemma slot_moved f s t : f <> Phase0 -> slot t < 2 ^ 56 -> slot s + 1 < 2 ^ 64 -> process_slots E f (slot s + 1) s = (Ok tt, t) -> moved s t.
Proof.
  intros Hf Hs Hlt P. destruct (C19_reaches_target E f s t (slot s + 1) Hc Hlt P) as [Ht _].
  assert (Hss : slot_small s) by (unfold slot_small; rewrite Ht in Hs; lia). pose proof (advance_one E Hc f s t Hss P) as Adv.
  destruct (advance_inv E Hc f s t ltac:(rewrite U64_val; exact Hlt) Adv) as (s1 & s2 & P1 & S1 & P2 & S2 & Et).
  assert (HS1 : current_sync_committee s1 = current_sync_committee s /\ next_sync_committee s1 = next_sync_committee s).
  { pose proof (evp_slot E f s) as X. rewrite P1 in X. apply (frame_sync f _ _ _ X). discriminate. }
  destruct HS1 as [Q1 Q2]. assert (Hz : SLOTS_PER_EPOCH E <> 0) by (ctxs Hc; lia). assert (Hp : EPOCHS_PER_SYNC_COMMITTEE_PERIOD E <> 0) by (clear - He; unfold ctx_sane_epoch in He; lia).
  assert (T : current_sync_committee t = current_sync_committee s2 /\ next_sync_committee t = next_sync_committee s2) by (rewrite Et; gs; split; reflexivity). destruct T as [T1 T2].
  unfold moved, sync_period. rewrite Ht, T1, T2.
  destruct (N.eqb_spec ((slot s + 1) mod SLOTS_PER_EPOCH E) 0) as [Hm|Hm].
  2:{ subst s2. left. rewrite (mid _ _ Hz Hm). auto. }
  assert (Hs1 : slot_small s1) by (unfold slot_small; rewrite S1; exact Hss).
  destruct (C35_rotation E f s1 s2 Hc He Hs1 Hf P2) as [N1 N2]. unfold epoch_ends_period, epoch_of in N1, N2. rewrite S1 in N1, N2.
  rewrite (stop _ _ Hz Hm). set (e := slot s / SLOTS_PER_EPOCH E) in *.
  destruct (N.eqb_spec ((e + 1) mod EPOCHS_PER_SYNC_COMMITTEE_PERIOD E) 0) as [Hq|Hq].
  - right. destruct (N2 eq_refl) as [R1 _]. rewrite (stop _ _ Hp Hq). split; [reflexivity|congruence].
  - left. destruct (N1 eq_refl) as [R1 R2]. rewrite (mid _ _ Hp Hq). split; [reflexivity|split; congruence].
Qed.
Lemma step_moved f g s t : f <> Phase0 -> slot t < 2 ^ 56 -> step E (f, s) (g, t) -> moved s t /\ g <> Phase0.
Proof.
  intros Hf Hs S. inversion S as [f' s' t' Hb P|f' b s' r t' P|f' g' s' t' C Hne]; subst.
  - split; [apply (slot_moved g); assumption|exact Hf].
  - split; [|exact Hf]. left. pose proof (ss_block g _ (evp_block E g b) s) as X. rewrite P in X. destruct X as (A1 & A2 & A3 & _). unfold sync_period. cbn [snd] in *. rewrite A1, A2, A3. auto.
  - destruct (upgrade_sync f g s t C Hne Hf) as [(A1 & A2 & A3) Hg]. split; [|exact Hg]. left. unfold sync_period. rewrite A1, A2, A3. auto.
Qed.
Lemma walk_moved p0 z l : fst p0 <> Phase0 -> walk E p0 (z :: l) -> slot (snd z) < 2 ^ 56 ->
  fst z <> Phase0 /\ sync_period E (snd p0) <= sync_period E (snd z)
  /\ (sync_period E (snd z) = sync_period E (snd p0) -> current_sync_committee (snd z) = current_sync_committee (snd p0) /\ next_sync_committee (snd z) = next_sync_committee (snd p0))
  /\ (sync_period E (snd z) = sync_period E (snd p0) + 1 -> current_sync_committee (snd z) = next_sync_committee (snd p0)).
Proof.
  intros Hf W. remember (z :: l) as zl eqn:Hz. revert z l Hz. induction W as [|p q l W IH S]; intros z l0 [= <- <-] Hs.
  - split; [exact Hf|]. split; [apply N.le_refl|]. split; [auto|]. intros X. lia.
  - specialize (IH p l eq_refl). pose proof (walk_step E p0 p q l W S) as W2. destruct (walk_chain E Hc p0 _ W2 p (or_intror (or_introl eq_refl))) as [_ X]. specialize (X _ _ eq_refl).
    assert (Hsl : slot (snd p) <= slot (snd q)).
    { destruct (N.eq_dec (slot (snd p)) 0) as [->|H0]; [apply N.le_0_l|]. apply (chain_kept E Hc 0) in X. apply (proj1 (X ltac:(lia))). }
    destruct (IH ltac:(lia)) as (I1 & I2 & I3 & I4). destruct p as [fp sp], q as [fq sq]. cbn [fst snd] in *.
    destruct (step_moved fp fq sp sq I1 Hs S) as [M Hq]. split; [exact Hq|]. destruct M as [(M1 & M2 & M3)|(M1 & M2)].
    + rewrite M1, M2, M3. auto.
    + rewrite M1. split; [lia|]. split; [intros Y; lia|]. intros Y. rewrite M2. apply I3. lia.
Qed.
End Sync.

(** within a period the committees do not change, and in the next period the committee announced as the next one serves *)
Theorem C105_announced : forall (E : Env) (f g : Fork) (s t : BeaconState),
  ctx_sane E -> ctx_sane_epoch E -> f <> Phase0 -> SpecFinality.chain E (f, s) (g, t) -> slot t < 2 ^ 56 ->
  sync_period E s <= sync_period E t
  /\ (sync_period E t = sync_period E s -> current_sync_committee t = current_sync_committee s /\ next_sync_committee t = next_sync_committee s)
  /\ (sync_period E t = sync_period E s + 1 -> current_sync_committee t = next_sync_committee s).
Proof.
  intros E f g s t Hc He Hf C Hs. destruct (walk_of E Hc _ _ C) as [l W]. destruct (walk_moved E Hc He (f, s) (g, t) l Hf W Hs) as (_ & H). exact H.
Qed.
(** so whoever knows the two committees of a state can check the sync aggregate of every block accepted up to the end of the following period *)
Theorem C105_light_client : forall (E : Env) (f g : Fork) (s t t' : BeaconState) (b : BeaconBlock),
  ctx_sane E -> ctx_sane_epoch E -> f <> Phase0 -> SpecFinality.chain E (f, s) (g, t) -> slot t < 2 ^ 56 -> state_shape E t -> lenN (validators t') <= 2 ^ 40 ->
  process_block E g b t = (Ok tt, t') ->
  (sync_period E t = sync_period E s -> signed_by_committee E t (current_sync_committee s) (bb_sync_aggregate (bk_body b)))
  /\ (sync_period E t = sync_period E s + 1 -> signed_by_committee E t (next_sync_committee s) (bb_sync_aggregate (bk_body b))).
Proof.
  intros E f g s t t' b Hc He Hf C Hs Hsh Hn P. destruct (walk_of E Hc _ _ C) as [l W]. destruct (walk_moved E Hc He (f, s) (g, t) l Hf W Hs) as (Hg & _ & A & B). cbn [fst snd] in *.
  assert (V : signed_by_committee E t (current_sync_committee t) (bb_sync_aggregate (bk_body b))).
  { unfold process_block in P. cbv zeta in P.
    apply sbind_ok_inv in P as ([] & t1 & P1 & P). apply sbind_ok_inv in P as ([] & t2 & P2 & P). apply sbind_ok_inv in P as ([] & t3 & P3 & P).
    apply sbind_ok_inv in P as ([] & t4 & P4 & P). apply sbind_ok_inv in P as ([] & t5 & P5 & P).
    assert (Hev : evo E g LBlock t t5).
    { assert (X1 : evp E g LBlock (process_block_header E g b)) by fr. specialize (X1 t). rewrite P1 in X1. cbn [snd] in X1.
      assert (X3 : evp E g LBlock (process_randao E (bk_body b))) by fr. specialize (X3 t2). rewrite P3 in X3. cbn [snd] in X3.
      assert (X4 : evp E g LBlock (process_eth1_data E (bk_body b))) by fr. specialize (X4 t3). rewrite P4 in X4. cbn [snd] in X4.
      assert (X5 : evp E g LBlock (process_operations E g (bk_body b))) by fr. specialize (X5 t4). rewrite P5 in X5. cbn [snd] in X5.
      match type of P2 with ?m t1 = _ => assert (X2 : evp E g LBlock m) by (destruct g; fr) end. specialize (X2 t1). rewrite P2 in X2. cbn [snd] in X2.
      eapply evo_trans; [exact X1|]. eapply evo_trans; [exact X2|]. eapply evo_trans; [exact X3|]. eapply evo_trans; [exact X4|exact X5]. }
    assert (Hle : fork_le Altair g = true) by (destruct g; [contradiction|reflexivity..]). rewrite Hle in P. unfold swhen in P.
    assert (X6 : evp E g LBlock (process_sync_aggregate E (bb_sync_aggregate (bk_body b)))) by fr. specialize (X6 t5). rewrite P in X6. cbn [snd] in X6.
    destruct (frame_shape E g _ _ (evo_all_of E g LBlock _ _ X6)) as (_ & _ & _ & _ & _ & L6).
    destruct (frame_shape E g _ _ (evo_all_of E g LBlock _ _ Hev)) as (K1 & K2 & K3 & K4 & K5 & _). destruct Hsh as (Z1 & Z2 & Z3 & Z4 & Z5 & Z6).
    destruct (ss_evo E g _ _ Hev) as (A1 & A2 & A3 & A4 & A5 & A6).
    assert (Hsh5 : state_shape E t5) by (repeat split; try congruence; [apply K5; exact Z5|clear - L6 Hn; lia]).
    assert (Hs5 : slot_small t5) by (unfold slot_small; rewrite A3; exact Hs).
    unfold process_sync_aggregate in P. apply sbind_ok_inv in P as ([] & t6 & P & _). apply inv_rd in P as [P _]. apply (sync_checks_iff E Hc _ _ Hsh5 Hs5) in P.
    destruct P as (_ & block & dom & root & V1 & V2 & V3 & V4). unfold signed_by_committee. cbv zeta. exists (N.max (slot t) 1 - 1), block, dom, root.
    unfold sync_reference_slot, recorded_root, version_at, participating_keys in *. rewrite A1, A3, ?A4, ?A5, ?A6 in *. auto. }
  split; intros X; [rewrite <- (proj1 (A X))|rewrite <- (B X)]; exact V.
Qed.

(** four slots (one period of this configuration) and a block, from a state whose next committee differs from the current one *)
Definition sync_start : BeaconState :=
  let g := pair_genesis pair_env 1 Altair in
  set_next_sync_committee (mkSyncCom (sc_public_keys (next_sync_committee g)) (repeat 9 48)) g.
Definition sync_run : list BeaconState := snd (pair_run pair_env 1 Altair true [sync_start] [Slot; Slot; Slot; Slot]).
Definition sync_z : BeaconState := hd sync_start sync_run.
Example C105_example : ctx_sane pair_env /\ ctx_sane_epoch pair_env /\ SpecFinality.chain pair_env (Altair, sync_start) (Altair, sync_z) /\ slot sync_z < 2 ^ 56
  /\ state_shape pair_env sync_z /\ sync_period pair_env sync_z = sync_period pair_env sync_start + 1
  /\ bytes_eqb (sc_aggregate_public_key (current_sync_committee sync_z)) (sc_aggregate_public_key (current_sync_committee sync_start)) = false
  /\ is_ok (fst (process_block pair_env Altair (pair_block pair_env 1 [3] sync_z) sync_z)) = true.
Proof.
  split; [exact pair_sane|]. split; [apply pair_config|].
  assert (Hr : fst (pair_run pair_env 1 Altair true [sync_start] [Slot; Slot; Slot; Slot]) = true) by (vm_compute; reflexivity).
  assert (W : walk pair_env (Altair, sync_start) (in_fork Altair sync_run)) by (apply pair_walk; [apply walk_start|exact Hr]).
  assert (X : match sync_run with [] => false | _ => true end = true) by (vm_compute; reflexivity).
  split; [|split; [vm_compute; reflexivity|]].
  - unfold sync_z. destruct sync_run as [|z tl]; [discriminate|]. apply (walk_chain pair_env pair_sane _ _ W). left. reflexivity.
  - split; [repeat split; vm_compute; first [reflexivity|discriminate]|]. repeat split; vm_compute; reflexivity.
Qed.

Print Assumptions C105_announced.
Print Assumptions C105_light_client.
