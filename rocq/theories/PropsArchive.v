(** * C104: the archive of historical roots has exactly one entry per past period and the entry summarizes all roots of the period *)
From Verif Require Import Base BaseLemmas Types Ctx Env Presets Helpers HelpersAltair HelpersElectra Block Epoch Transition Upgrade Genesis StLemmas
  SpecCommon SpecRegistry SpecHelpers SpecElectra SpecOps SpecAtt SpecEpoch SpecSlots SpecHistory SpecFinality SpecSafety SpecReach SpecArchive
  Frame FrameProofs HelperProofs HelperProofs2 HistoryProofs EpochProofs FinalityProofs SlotProofs VoteProofs PropsVotes PropsSlots PropsEpoch PropsUpgrade PropsReach SafetyProofs SafetyChain
  Toy Toy2 ToyPairCtx ToyPair PropsSafety.

Section Archive.
Context (E : Env).
Hypothesis Hc : ctx_sane E.
Hypothesis He : ctx_sane_epoch E.
Hypothesis Ha : ctx_sane_att E.
(** ** genesis *)
Definition hsame (s t : BeaconState) : Prop := historical_roots t = historical_roots s /\ historical_summaries t = historical_summaries s /\ slot t = slot s.
Lemma hs_refl s : hsame s s. Proof. repeat split. Qed.
Lemma hs_trans a b c : hsame a b -> hsame b c -> hsame a c.
Proof. intros (A1 & A2 & A3) (B1 & B2 & B3). repeat split; congruence. Qed.
Lemma hs_block {A} f (m : St BeaconState A) : evp E f LBlock m -> pres hsame m.
Proof.
  intros P s. specialize (P s). destruct (frame_history E f _ _ _ P) as (rs & hs & H1 & H2 & H3). destruct H3 as [-> ->]; [discriminate|]. rewrite app_nil_r in *.
  split; [exact H1|]. split; [exact H2|]. apply (frame_slot E f LBlock _ _ P). discriminate.
Qed.
Lemma hs_mod i g : pres hsame (mod_validator i g).
Proof. intros s. unfold mod_validator, sbind, rd, md. destruct (idx _ _); cbn [snd]; try apply hs_refl. repeat split. Qed.
Ltac hss := repeat match goal with
  | |- forall _, _ => intro
  | |- pres hsame (sbind _ _) => apply pres_bind; [exact hs_trans| |] | |- pres hsame (rd _) => apply pres_rd; exact hs_refl | |- pres hsame (lift _) => apply pres_lift; exact hs_refl
  | |- pres hsame (sret _) => apply pres_ret; exact hs_refl
  | |- pres hsame (swhen _ _) => apply pres_when; [exact hs_refl|] | |- pres hsame (sfor _ _) => apply pres_for; [exact hs_refl|exact hs_trans|] | |- pres hsame (mod_validator _ _) => apply hs_mod
  | |- pres hsame (match ?x with _ => _ end) => destruct x
  | |- pres hsame (md _) => apply pres_md; intros ?; repeat split end.
Lemma hs_deposits f ds : forall l, pres hsame (genesis_deposits E f ds l).
Proof.
  induction ds as [|d ds IH]; intros l; cbn [genesis_deposits]; [hss|]. cbn zeta. apply pres_bind; [exact hs_trans|hss|]. intros r.
  apply pres_bind; [exact hs_trans|hss|]. intros _. apply pres_bind; [exact hs_trans|apply (hs_block f), evp_deposit|]. intros _. apply IH.
Qed.
Lemma hs_steps f ds : pres hsame (genesis_steps E f ds).
Proof.
  unfold genesis_steps. apply pres_bind; [exact hs_trans|apply hs_deposits|]. intros _. unfold genesis_drain_pending, genesis_activation_step.
  apply pres_bind; [exact hs_trans|apply pres_when; [exact hs_refl|]; apply pres_bind; [exact hs_trans|hss|]; intros l; apply pres_bind; [exact hs_trans|hss|]; intros _; apply pres_for; [exact hs_refl|exact hs_trans|];
    intros d; apply (hs_block f), evp_increase|].
  intros _. hss.
Qed.
Lemma genesis_archive f bh ts ds h s : initialize_beacon_state_from_eth1 E f bh ts ds h = Ok s -> historical_roots s = [] /\ historical_summaries s = [] /\ slot s = 0.
Proof.
  intros G. unfold initialize_beacon_state_from_eth1 in G. rinv G.
  match goal with G : (let (_, _) := genesis_steps E f ds ?b in _) = _ |- _ => pose proof (hs_steps f ds b) as Hf; destruct (genesis_steps E f ds b) as [r p] end.
  rinv G. cbn [snd] in Hf. destruct Hf as (F1 & F2 & F3). subst. repeat match goal with |- context [if ?c then _ else _] => destruct c end; gs; auto.
Qed.
(** ** upgrades *)
Lemma hs_finish : pres hsame (electra_finish E).
Proof.
  unfold electra_finish, queue_entire_balance_and_reset_validator, queue_excess_active_balance.
  repeat first [apply pres_bind; [exact hs_trans| |intros] | apply pres_rd; exact hs_refl | apply pres_lift; exact hs_refl
    | apply pres_for; [exact hs_refl|exact hs_trans|intros] | apply hs_mod | apply pres_if | apply pres_ret; exact hs_refl
    | apply pres_md; intros; repeat split].
Qed.
Definition pre (f : Fork) (s : BeaconState) : Prop := fork_le Capella f = false -> historical_summaries s = [].
Lemma upgrade_archive f g s t : chain_call E (f, s) (g, t) -> f <> g -> pre f s -> hsame s t /\ pre g t.
Proof.
  intros C Hne P. inversion C; subst; try contradiction.
  - unfold upgrade_to_altair in *. match goal with U : _ = Ok t |- _ => rename U into U0 end. apply rbind_ok_inv in U0 as (e & _ & U0). apply rbind_ok_inv in U0 as (post & Hp & U0).
    unfold translate_participation in Hp. apply rbind_ok_inv in Hp as (part & _ & Hp). apply Ok_inj in Hp. subst post.
    apply rbind_ok_inv in U0 as (c & _ & U0). apply Ok_inj in U0. specialize (P eq_refl). subst t. unfold pre, hsame. gs. auto.
  - match goal with U : upgrade_to_bellatrix _ _ = _ |- _ => unfold upgrade_to_bellatrix in U; apply rbind_ok_inv in U as (e & _ & U); apply Ok_inj in U; specialize (P eq_refl); subst end. unfold pre, hsame. gs. auto.
  - match goal with U : upgrade_to_capella _ _ = _ |- _ => unfold upgrade_to_capella in U; apply rbind_ok_inv in U as (e & _ & U); cbv zeta in U; apply Ok_inj in U; specialize (P eq_refl); subst end.
    unfold pre, hsame. gs. rewrite P. split; [auto|discriminate].
  - match goal with U : upgrade_to_deneb _ _ = _ |- _ => unfold upgrade_to_deneb in U; apply rbind_ok_inv in U as (e & _ & U); cbv zeta in U; apply Ok_inj in U; subst end. unfold pre, hsame. gs. split; [auto|discriminate].
  - match goal with U : upgrade_to_electra _ _ = _ |- _ => rename U into U0 end.
    unfold upgrade_to_electra in U0. apply rbind_ok_inv in U0 as (e & _ & U0). apply rbind_ok_inv in U0 as (ee & _ & U0). apply rbind_ok_inv in U0 as (ec & _ & U0).
    pose proof (hs_finish (electra_base E e ee ec s)) as Hp. destruct (electra_finish E _) as [r post]. apply rbind_ok_inv in U0 as (u & _ & U0). apply Ok_inj in U0. subst t.
    cbn [snd] in Hp. split; [eapply hs_trans; [|exact Hp]; repeat split|discriminate].
Qed.

(** ** along a walk *)
Lemma upgrade_slot f g s t : chain_call E (f, s) (g, t) -> f <> g -> slot t = slot s.
Proof.
  intros C Hne. destruct (upgrade_same E f g s t C Hne) as [(-> & -> & U)|(_ & _ & U & _)]; [|exact U].
  destruct (C38_always_preserved E s t Hc U) as ((_ & _ & K & _) & _). exact K.
Qed.
Lemma leaves p0 z l : walk E p0 (z :: l) -> slot (snd p0) = 0 -> forall sl, sl < slot (snd z) ->
  exists f s t, In (f, s) (z :: l) /\ In (f, t) (z :: l) /\ slot s = sl /\ process_slots E f (sl + 1) s = (Ok tt, t).
Proof.
  intros W H0. remember (z :: l) as zl eqn:Hz. revert z l Hz. induction W as [|p q l W IH S]; intros z l0 [= <- <-] sl Hsl; [rewrite H0 in Hsl; lia|].
  specialize (IH p l eq_refl). assert (Hold : sl < slot (snd p) -> exists f s t, In (f, s) (q :: p :: l) /\ In (f, t) (q :: p :: l) /\ slot s = sl /\ process_slots E f (sl + 1) s = (Ok tt, t)).
  { intros X. destruct (IH sl X) as (f & s & t & A & B & C & D). exists f, s, t. split; [right; exact A|]. split; [right; exact B|]. auto. }
  inversion S as [f s t Hb P|f b s r t P|f g s t C Hne]; subst; cbn [snd] in *.
  - destruct (C19_reaches_target E f s t (slot s + 1) Hc ltac:(exact Hb) P) as [Ht _]. rewrite Ht in Hsl.
    destruct (N.eq_dec sl (slot s)) as [->|Hn]; [|apply Hold; lia]. exists f, s, t. split; [right; left; reflexivity|]. split; [left; reflexivity|]. auto.
  - apply Hold. assert (X : slot t = slot s); [|rewrite <- X; exact Hsl]. pose proof (hs_block f _ (evp_block E f b) s) as (_ & _ & X). rewrite P in X. exact X.
  - apply Hold. rewrite (upgrade_slot f g s t C Hne) in Hsl. exact Hsl.
Qed.
Lemma left_head p0 g t l bh ts ds hd : initialize_beacon_state_from_eth1 E (fst p0) bh ts ds hd = Ok (snd p0) -> walk E p0 ((g, t) :: l) ->
  lenN (validators t) <= 2 ^ 40 -> slot t < 2 ^ 56 -> forall sl, sl < slot t -> slot t <= sl + SLOTS_PER_HISTORICAL_ROOT E ->
  exists sr br, left_with E ((g, t) :: l) sl sr br /\ nthN (block_roots t) (sl mod SLOTS_PER_HISTORICAL_ROOT E) = Some br /\ nthN (state_roots t) (sl mod SLOTS_PER_HISTORICAL_ROOT E) = Some sr.
Proof.
  intros G W Hn Hs sl H1 H2. destruct (genesis_archive _ _ _ _ _ _ G) as (_ & _ & G0).
  destruct (leaves p0 (g, t) l W G0 sl H1) as (f & s & u & A & B & C & D).
  destruct (C20_roots_exist E f s u _ Hc D) as (sr & br & R). exists sr, br. split; [exists f, s, u; auto|].
  destruct (walk_chain E Hc p0 _ W _ A) as [A1 A2]. specialize (A2 _ _ eq_refl). destruct (walk_chain E Hc p0 _ W _ B) as [B1 B2]. specialize (B2 _ _ eq_refl).
  destruct (walk_chain E Hc p0 _ W (g, t) (or_introl eq_refl)) as [T1 _].
  assert (On : forall h x, SpecFinality.chain E p0 (h, x) -> on_chain E h x).
  { intros h x X. destruct p0 as [f0 s0]. exists f0, bh, ts, ds, hd, s0. split; assumption. }
  assert (Hls : lenN (validators s) <= 2 ^ 40).
  { apply chain_history, history_across in A2 as [A2 _]. cbn [snd] in A2. destruct (N.le_gt_cases (lenN (validators s)) (lenN (validators t))) as [X|X]; [lia|].
    destruct (nthN_lt (validators s) (lenN (validators t)) X) as [v Hv]. destruct (A2 _ _ Hv) as (v' & Hv' & _). apply nthN_some in Hv'. lia. }
  pose proof (on_chain_shape E f s (On f s A1) Hls) as Ss. pose proof (on_chain_shape E g t (On g t T1) Hn) as St.
  subst sl. destruct (C20_recorded E f g s u t sr br Hc Ss ltac:(unfold slot_small; lia) R D B2 H2) as (_ & X1 & X2). split; [|exact X2].
  destruct (proj1 (C20_window E t (slot s) Hc St Hs ltac:(lia)) (conj H1 H2)) as (r & Y1 & Y2). rewrite X1 in Y2. injection Y2 as ->. exact Y1.
Qed.
Hypothesis Hdiv : SLOTS_PER_HISTORICAL_ROOT E mod SLOTS_PER_EPOCH E = 0.
Lemma left_mono l q sl sr br : left_with E l sl sr br -> left_with E (q :: l) sl sr br.
Proof. intros (f & s & t & A & B & C). exists f, s, t. split; [right; exact A|]. split; [right; exact B|exact C]. Qed.
Lemma summ_mono l q k h : summarizes E l k h -> summarizes E (q :: l) k h.
Proof.
  intros (bs & ss & A & B & C & D). exists bs, ss. split; [exact A|]. split; [exact B|]. split; [|exact D].
  intros j Hj. destruct (C j Hj) as (sr & br & X & Y). exists sr, br. split; [apply left_mono; exact X|exact Y].
Qed.
(** the state before, with at most one more entry *)
Lemma entry_same s t k h : hsame s t -> archive_entry E s k h -> archive_entry E t k h.
Proof. intros (A1 & A2 & _) X. unfold archive_entry in *. rewrite A1, A2. exact X. Qed.
Definition Arch (q : Fork * BeaconState) (l : list (Fork * BeaconState)) : Prop :=
  pre (fst q) (snd q) /\ archive_length (snd q) = slot (snd q) / SLOTS_PER_HISTORICAL_ROOT E
  /\ forall k, k < slot (snd q) / SLOTS_PER_HISTORICAL_ROOT E -> exists h, archive_entry E (snd q) k h /\ summarizes E (q :: l) k h.
Lemma arch_same p q l : hsame (snd p) (snd q) -> pre (fst q) (snd q) -> Arch p l -> Arch q (p :: l).
Proof.
  intros S P (A1 & A2 & A3). pose proof S as (S1 & S2 & S3). split; [exact P|]. unfold archive_length in *. rewrite S1, S2, S3. split; [exact A2|].
  intros k Hk. destruct (A3 k Hk) as (h & X & Y). exists h. split; [eapply entry_same; eauto|apply summ_mono; exact Y].
Qed.
Lemma sphr_pos : SLOTS_PER_HISTORICAL_ROOT E <> 0. Proof. destruct He as (_ & _ & _ & _ & _ & X). ctxs Hc. lia. Qed.
(** slots and periods *)
Lemma div_end x d : d <> 0 -> (x + 1) mod d = 0 -> (x + 1) / d = x / d + 1 /\ x + 1 = d * (x / d + 1).
Proof.
  intros Hd H. pose proof (N.div_mod' (x + 1) d) as X. rewrite H, N.add_0_r in X.
  set (q := (x + 1) / d) in *. assert (1 <= q) by (destruct (N.eq_dec q 0) as [Hq|]; [rewrite Hq in X; lia|lia]).
  assert (Y : x / d = q - 1); [|rewrite Y; replace (q - 1 + 1) with q by lia; auto]. symmetry. apply (N.div_unique _ _ _ (d - 1)); [lia|]. rewrite N.mul_sub_distr_l.
  assert (d * 1 <= d * q) by (apply N.mul_le_mono_l; assumption). lia.
Qed.
Lemma period_end x : (x + 1) mod SLOTS_PER_HISTORICAL_ROOT E = 0 -> (x + 1) / SLOTS_PER_HISTORICAL_ROOT E = x / SLOTS_PER_HISTORICAL_ROOT E + 1.
Proof. intros X. apply div_end; [exact sphr_pos|exact X]. Qed.
Lemma period_mid x : (x + 1) mod SLOTS_PER_HISTORICAL_ROOT E <> 0 -> (x + 1) / SLOTS_PER_HISTORICAL_ROOT E = x / SLOTS_PER_HISTORICAL_ROOT E.
Proof.
  pose proof sphr_pos as Hp. generalize dependent (SLOTS_PER_HISTORICAL_ROOT E). intros d _ Hd H. pose proof (N.div_mod' (x + 1) d) as X. pose proof (N.mod_lt (x + 1) d Hd).
  apply (N.div_unique x d _ ((x + 1) mod d - 1)); lia.
Qed.
Lemma period_epoch x : (x + 1) mod SLOTS_PER_EPOCH E = 0 ->
  ((x / SLOTS_PER_EPOCH E + 1) mod (SLOTS_PER_HISTORICAL_ROOT E / SLOTS_PER_EPOCH E) = 0 <-> (x + 1) mod SLOTS_PER_HISTORICAL_ROOT E = 0).
Proof.
  intros Hm. assert (Hz : SLOTS_PER_EPOCH E <> 0) by (ctxs Hc; lia). destruct (div_end x _ Hz Hm) as [_ B]. set (e := x / SLOTS_PER_EPOCH E + 1) in *. rewrite B.
  pose proof (N.div_mod' (SLOTS_PER_HISTORICAL_ROOT E) (SLOTS_PER_EPOCH E)) as D. rewrite Hdiv, N.add_0_r in D. set (d := SLOTS_PER_HISTORICAL_ROOT E / SLOTS_PER_EPOCH E) in *.
  pose proof sphr_pos as Hp. rewrite D in Hp |- *. assert (Hd : d <> 0) by (intros ->; apply Hp; apply N.mul_0_r).
  rewrite N.mul_mod_distr_l by assumption. split; [intros ->; apply N.mul_0_r|]. intros X. apply N.eq_mul_0 in X. destruct X; [contradiction|assumption].
Qed.
Lemma period_not_epoch x : (x + 1) mod SLOTS_PER_EPOCH E <> 0 -> (x + 1) mod SLOTS_PER_HISTORICAL_ROOT E <> 0.
Proof.
  intros Hm H. apply Hm. assert (Hz : SLOTS_PER_EPOCH E <> 0) by (ctxs Hc; lia). pose proof sphr_pos as Hp.
  apply N.mod_divide in H; [|exact Hp]. apply N.mod_divide in Hdiv; [|exact Hz]. apply N.mod_divide; [exact Hz|]. eapply N.divide_trans; eauto.
Qed.
Lemma arch_slot p0 f s t l bh ts ds hd : initialize_beacon_state_from_eth1 E (fst p0) bh ts ds hd = Ok (snd p0) -> walk E p0 ((f, t) :: (f, s) :: l) ->
  lenN (validators t) <= 2 ^ 40 -> slot t < 2 ^ 56 -> slot s + 1 < 2 ^ 64 -> process_slots E f (slot s + 1) s = (Ok tt, t) -> Arch (f, s) l ->
  Arch (f, t) ((f, s) :: l) /\ forall k h, archive_entry E s k h -> archive_entry E t k h.
Proof.
  intros G W Hn Hs Hlt P A.
  destruct (C19_reaches_target E f s t (slot s + 1) Hc Hlt P) as [Ht _].
  assert (Hss : slot_small s) by (unfold slot_small; rewrite Ht in Hs; lia). pose proof (advance_one E Hc f s t Hss P) as Adv.
  destruct (advance_inv E Hc f s t ltac:(rewrite U64_val; exact Hlt) Adv) as (s1 & s2 & P1 & S1 & P2 & S2 & Et).
  assert (HS1 : hsame s s1).
  { pose proof (evp_slot E f s) as X. rewrite P1 in X. cbn [snd] in X. destruct (frame_history E f _ _ _ X) as (rs & hs & H1 & H2 & H3).
    destruct H3 as [-> ->]; [discriminate|]. rewrite app_nil_r in *. repeat split; assumption. }
  assert (Hpre : forall x, historical_summaries x = historical_summaries s -> pre f x) by (intros x X Hf; rewrite X; apply A; exact Hf).
  (* no new entry *)
  assert (Hold : (slot s + 1) mod SLOTS_PER_HISTORICAL_ROOT E <> 0 -> historical_roots s2 = historical_roots s1 -> historical_summaries s2 = historical_summaries s1 ->
    Arch (f, t) ((f, s) :: l) /\ forall k h, archive_entry E s k h -> archive_entry E t k h).
  { intros Hm R1 R2. destruct HS1 as (Q1 & Q2 & _). destruct A as (A1 & A2 & A3). cbn [fst snd] in *. assert (T1 : historical_roots t = historical_roots s) by (rewrite Et; gs; congruence).
    assert (T2 : historical_summaries t = historical_summaries s) by (rewrite Et; gs; congruence).
    split; [|intros k h X; unfold archive_entry in *; rewrite T1, T2; exact X]. unfold Arch, archive_length in *. cbn [fst snd]. rewrite T1, T2, Ht, period_mid by exact Hm.
    split; [apply Hpre; exact T2|]. split; [exact A2|]. intros k Hk. destruct (A3 k Hk) as (h & X & Y). exists h. split; [|apply summ_mono; exact Y].
    unfold archive_entry in *. rewrite T1, T2. exact X. }
  destruct (N.eqb_spec ((slot s + 1) mod SLOTS_PER_EPOCH E) 0) as [Hm|Hm]; [|subst s2; apply Hold; auto; apply period_not_epoch; exact Hm].
  assert (Hs1 : slot_small s1) by (unfold slot_small; rewrite S1; exact Hss).
  destruct (C31_periodic_updates E f s1 s2 Hc He Hs1 P2) as (_ & _ & _ & N1 & N2 & _). unfold epoch_ends_period, epoch_of in N1, N2. rewrite S1 in N1, N2.
  pose proof (period_epoch (slot s) Hm) as PE. destruct (N.eqb_spec ((slot s / SLOTS_PER_EPOCH E + 1) mod (SLOTS_PER_HISTORICAL_ROOT E / SLOTS_PER_EPOCH E)) 0) as [Hp|Hp].
  2:{ destruct (N1 eq_refl) as [R1 R2]. apply Hold; auto. rewrite <- PE. exact Hp. }
  destruct (N2 eq_refl) as (br & sr & B1 & B2 & C1 & C2). clear N1 N2 Hold. apply PE in Hp. clear PE.
  destruct HS1 as (Q1 & Q2 & _). destruct A as (A1 & A2 & A3). cbn [fst snd] in *. destruct (epoch_roots E f s1 _ s2 P2) as [K1 K2].
  set (k0 := slot s / SLOTS_PER_HISTORICAL_ROOT E) in *. pose proof sphr_pos as Hz. destruct (div_end (slot s) _ Hz Hp) as [D1 D2]. fold k0 in D1, D2.
  set (d := SLOTS_PER_HISTORICAL_ROOT E) in *.
  assert (Hsum : summarizes E ((f, t) :: (f, s) :: l) k0 (mkHistSum br sr)).
  { exists (block_roots t), (state_roots t). inversion W as [|? ? ? W' _]; subst. pose proof (walk_chain E Hc p0 _ W _ (or_introl eq_refl)) as [T1 _].
    assert (On : on_chain E f (set_slot (slot s2 + 1) s2)) by (destruct p0 as [f0 s0]; exists f0, bh, ts, ds, hd, s0; split; assumption).
    pose proof (on_chain_shape E f _ On Hn) as (L1 & L2 & _). split; [exact L1|]. split; [exact L2|]. split.
    - intros j Hj. destruct (left_head p0 f _ _ bh ts ds hd G W Hn Hs (k0 * d + j)) as (sr' & br' & X1 & X2 & X3); [rewrite Ht, D2; fold d; lia|rewrite Ht, D2; fold d; lia|].
      exists sr', br'. split; [exact X1|]. assert (Hj' : (k0 * d + j) mod d = j) by (rewrite N.add_comm, N.mod_add by exact Hz; apply N.mod_small; exact Hj).
      fold d in X2, X3. rewrite Hj' in X2, X3. auto.
    - gs. rewrite K1, K2. auto. }
  assert (Hnew : archive_length t = k0 + 1 /\ pre f t /\ (forall k h, archive_entry E s k h -> archive_entry E t k h) /\ archive_entry E t k0 (mkHistSum br sr)).
  { unfold archive_length in *. destruct (fork_le Capella f) eqn:Hf.
    - destruct (C1 eq_refl) as [R1 R2]. assert (T1 : historical_roots t = historical_roots s) by (rewrite Et; gs; congruence).
      assert (T2 : historical_summaries t = historical_summaries s ++ [mkHistSum br sr]) by (rewrite Et; gs; congruence). unfold archive_entry. rewrite T1, T2. split; [|split; [|split]].
      + rewrite lenN_app. change (lenN [mkHistSum br sr]) with 1. lia.
      + intros X. rewrite Hf in X. discriminate.
      + intros k h [X|[X1 X2]]; [left; exact X|right]. split; [exact X1|]. rewrite nthN_app_l; [exact X2|apply (nthN_some _ _ _ X2)].
      + right. split; [lia|]. rewrite nthN_app_r by lia. replace (k0 - lenN (historical_roots s) - lenN (historical_summaries s)) with 0 by lia. reflexivity.
    - destruct (C2 eq_refl) as [R2 (root & R0 & R1)]. assert (T1 : historical_roots t = historical_roots s ++ [root]) by (rewrite Et; gs; congruence).
      assert (T2 : historical_summaries t = historical_summaries s) by (rewrite Et; gs; congruence). specialize (A1 Hf). unfold archive_entry. rewrite T1, T2. split; [|split; [|split]].
      + rewrite lenN_app. change (lenN [root]) with 1. lia.
      + intros _. rewrite T2. exact A1.
      + intros k h [(r & X1 & X2)|[X1 X2]]; [left|rewrite A1 in X2; discriminate]. exists r. split; [|exact X2]. rewrite nthN_app_l; [exact X1|apply (nthN_some _ _ _ X1)].
      + left. exists root. split; [|exact R0]. rewrite A1 in A2. change (lenN (@nil HistoricalSummary)) with 0 in A2. rewrite nthN_app_r by lia. replace (k0 - lenN (historical_roots s)) with 0 by lia. reflexivity. }
  destruct Hnew as (M1 & M2 & M3 & M4). split; [|exact M3]. unfold Arch. cbn [fst snd]. split; [exact M2|]. rewrite Ht. fold d. rewrite D1. split; [exact M1|].
  intros k Hk. destruct (N.eq_dec k k0) as [->|Hk0]; [exists (mkHistSum br sr); auto|]. destruct (A3 k ltac:(lia)) as (h & X & Y). exists h. split; [apply M3; exact X|apply summ_mono; exact Y].
Qed.
Lemma arch_walk p0 bh ts ds hd : initialize_beacon_state_from_eth1 E (fst p0) bh ts ds hd = Ok (snd p0) -> forall z l, walk E p0 (z :: l) ->
  lenN (validators (snd z)) <= 2 ^ 40 -> slot (snd z) < 2 ^ 56 ->
  Arch z l /\ forall q k h, In q (z :: l) -> archive_entry E (snd q) k h -> archive_entry E (snd z) k h.
Proof.
  intros G z l W. remember (z :: l) as zl eqn:Hz. revert z l Hz. induction W as [|p q l W IH S]; intros z l0 [= <- <-] Hn Hs.
  - destruct (genesis_archive _ _ _ _ _ _ G) as (G1 & G2 & G0). split; [|intros q k h [<-|[]] X; exact X]. unfold Arch, archive_length. rewrite G1, G2, G0. rewrite N.div_0_l by exact sphr_pos. split; [intros _; exact G2|]. split; [reflexivity|]. intros k Hk. lia.
  - specialize (IH p l eq_refl). pose proof (walk_step E p0 p q l W S) as W2. destruct (walk_chain E Hc p0 _ W2 p (or_intror (or_introl eq_refl))) as [_ X]. specialize (X _ _ eq_refl).
    assert (Hls : lenN (validators (snd p)) <= 2 ^ 40).
    { pose proof X as X2. apply chain_history, history_across in X2 as [X2 _]. destruct (N.le_gt_cases (lenN (validators (snd p))) (lenN (validators (snd q)))) as [Y|Y]; [lia|].
      destruct (nthN_lt (validators (snd p)) (lenN (validators (snd q))) Y) as [v Hv]. destruct (X2 _ _ Hv) as (v' & Hv' & _). apply nthN_some in Hv'. lia. }
    assert (Hsl : slot (snd p) <= slot (snd q)).
    { destruct (N.eq_dec (slot (snd p)) 0) as [->|H0]; [apply N.le_0_l|]. apply (chain_kept E Hc 0) in X. apply (proj1 (X ltac:(lia))). }
    specialize (IH Hls ltac:(lia)) as [IH IM].
    assert (Hgo : (forall k h, archive_entry E (snd p) k h -> archive_entry E (snd q) k h) -> forall x k h, In x (q :: p :: l) -> archive_entry E (snd x) k h -> archive_entry E (snd q) k h).
    { intros M x k h [<-|Hx] Hy; [exact Hy|]. apply M. apply (IM x k h Hx Hy). }
    inversion S as [f s t Hb P|f b s r t P|f g s t C Hne]; subst; cbn [fst snd] in *.
    + destruct (arch_slot p0 f s t l bh ts ds hd G W2 Hn Hs Hb P IH) as [Y1 Y2]. split; [exact Y1|apply Hgo; exact Y2].
    + assert (X1 : hsame s t) by (pose proof (hs_block f _ (evp_block E f b) s) as Y; rewrite P in Y; exact Y).
      split; [|apply Hgo; intros k h; apply entry_same; exact X1]. apply (arch_same (f, s) (f, t) l X1); [|exact IH]. intros Hf. cbn [fst snd] in *. destruct X1 as (_ & -> & _). apply IH. exact Hf.
    + destruct (upgrade_archive f g s t C Hne (proj1 IH)) as [U1 U2]. split; [|apply Hgo; intros k h; apply entry_same; exact U1]. apply (arch_same (f, s) (g, t) l U1 U2 IH).
Qed.
End Archive.

(** the archive of a state has exactly one entry for every period that is over, and the entry of a period summarizes the roots with which the node left each
    slot of that period *)
Theorem C104_archive : forall (E : Env) (p0 z : Fork * BeaconState) (l : list (Fork * BeaconState)),
  ctx_sane E -> ctx_sane_epoch E -> SLOTS_PER_HISTORICAL_ROOT E mod SLOTS_PER_EPOCH E = 0 -> from_genesis E p0 z l ->
  archive_length (snd z) = slot (snd z) / SLOTS_PER_HISTORICAL_ROOT E
  /\ forall k, k < slot (snd z) / SLOTS_PER_HISTORICAL_ROOT E -> exists h, archive_entry E (snd z) k h /\ summarizes E (z :: l) k h.
Proof.
  intros E p0 z l Hc He Hd ((bh & ts & ds & hd & G) & W & Hn & Hs). destruct (arch_walk E Hc He Hd p0 bh ts ds hd G z l W Hn Hs) as [(_ & A & B) _]. auto.
Qed.
(** entries are never changed or moved *)
Theorem C104_append_only : forall (E : Env) (p0 z q : Fork * BeaconState) (l : list (Fork * BeaconState)) (k : N) (h : HistoricalSummary),
  ctx_sane E -> ctx_sane_epoch E -> SLOTS_PER_HISTORICAL_ROOT E mod SLOTS_PER_EPOCH E = 0 -> from_genesis E p0 z l ->
  In q (z :: l) -> archive_entry E (snd q) k h -> archive_entry E (snd z) k h.
Proof.
  intros E p0 z q l k h Hc He Hd ((bh & ts & ds & hd & G) & W & Hn & Hs). destruct (arch_walk E Hc He Hd p0 bh ts ds hd G z l W Hn Hs) as [_ M]. apply M.
Qed.
(** a slot inside the last period: its roots can be looked up in the state *)
Theorem C104_recent : forall (E : Env) (p0 z : Fork * BeaconState) (l : list (Fork * BeaconState)) (sl : N),
  ctx_sane E -> ctx_sane_epoch E -> from_genesis E p0 z l -> sl < slot (snd z) -> slot (snd z) <= sl + SLOTS_PER_HISTORICAL_ROOT E ->
  exists sr br, left_with E (z :: l) sl sr br /\ nthN (block_roots (snd z)) (sl mod SLOTS_PER_HISTORICAL_ROOT E) = Some br
    /\ nthN (state_roots (snd z)) (sl mod SLOTS_PER_HISTORICAL_ROOT E) = Some sr.
Proof.
  intros E p0 [g t] l sl Hc He ((bh & ts & ds & hd & G) & W & Hn & Hs) H1 H2. apply (left_head E Hc p0 g t l bh ts ds hd G W Hn Hs sl H1 H2).
Qed.
Theorem C104_networks : forall c, In c [ctx_mainnet; ctx_minimal; ctx_goerli; ctx_sepolia; ctx_holesky; ctx_hoodi] -> SLOTS_PER_HISTORICAL_ROOT c mod SLOTS_PER_EPOCH c = 0.
Proof. intros c X. repeat (destruct X as [<-|X]; [vm_compute; reflexivity|]). destruct X. Qed.

(** sixteen slots (one period of this configuration) and a block, from genesis *)
Definition arch_events : list pair_event := [Slot; Slot; Blk []; Slot; Slot; Slot; Slot; Slot; Slot; Slot; Slot; Slot; Slot; Slot; Slot; Slot; Slot].
Definition arch_run : list BeaconState := snd (pair_run pair_env 1 Phase0 true [pair_start] arch_events).
Definition arch_z : BeaconState := hd pair_start arch_run.
Example C104_example : ctx_sane pair_env /\ ctx_sane_epoch pair_env /\ SLOTS_PER_HISTORICAL_ROOT pair_env mod SLOTS_PER_EPOCH pair_env = 0
  /\ from_genesis pair_env (Phase0, pair_start) (Phase0, arch_z) (in_fork Phase0 (tl arch_run))
  /\ slot arch_z = 16 /\ lenN (historical_roots arch_z) = 1.
Proof.
  split; [exact pair_sane|]. split; [apply pair_config|]. split; [reflexivity|].
  assert (Hr : fst (pair_run pair_env 1 Phase0 true [pair_start] arch_events) = true) by (vm_compute; reflexivity).
  split; [|split; vm_compute; reflexivity].
  apply (pair_from Phase0 arch_events arch_run); [left; reflexivity|rewrite <- Hr; apply surjective_pairing| | |].
  - assert (X : match arch_run with [] => false | _ => true end = true) by (vm_compute; reflexivity). unfold arch_z. destruct arch_run; [discriminate|reflexivity].
  - vm_compute. discriminate.
  - vm_compute. reflexivity.
Qed.

Print Assumptions C104_archive.
Print Assumptions C104_append_only.
Print Assumptions C104_recent.
Print Assumptions C104_networks.
