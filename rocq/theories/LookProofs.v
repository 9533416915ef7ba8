(** * The seed look-ahead: committees and proposers are fixed in advance (proof file; no model definitions) *)
From Verif Require Import Base BaseLemmas Types Ctx Env Helpers HelpersAltair HelpersElectra Block Epoch Transition StLemmas Frame
  SpecCommon SpecRegistry SpecHistory HelperProofs HelperProofs2 Upgrade Genesis Executor FrameProofs HistoryProofs SlotProofs SpecFinality FinalityProofs SpecAtt SpecDuties.
From Coq Require Import Relations Permutation.

(** ** Index sets *)
Lemma indices_where_ext {A} (p q : A -> bool) (l m : list A) : map p l = map q m -> indices_where p l = indices_where q m.
Proof.
  revert m; induction l as [|x l IH]; intros [|y m] H; try discriminate; [reflexivity|]. cbn [map] in H. injection H as H1 H2.
  rewrite !indices_where_cons, H1, (IH m H2). reflexivity.
Qed.
Lemma indices_where_snoc {A} (p : A -> bool) (l : list A) x : p x = false -> indices_where p (l ++ [x]) = indices_where p l.
Proof.
  intros Hx. induction l as [|y l IH]; cbn [app]; rewrite ?indices_where_cons.
  - rewrite Hx. reflexivity.
  - rewrite IH. reflexivity.
Qed.
Lemma map_updN_same {A B} (g : A -> B) l i v v' : nthN l i = Some v -> g v' = g v -> map g (updN l i v') = map g l.
Proof. intros Hv Hg. rewrite map_updN, Hg. apply updN_id. rewrite nthN_map, Hv. reflexivity. Qed.

Section WithEnv.
Variable E : Env.
Hypothesis Hchk : chk E = true.

(** activity in the epochs up to [c + MAX_SEED_LOOKAHEAD] does not change *)
Lemma vstep_active f c v v' e : vstep E f c v v' -> e <= c + MAX_SEED_LOOKAHEAD E -> e < FAR_FUTURE_EPOCH -> active_at e v' = active_at e v.
Proof.
  intros H He Hf. inversion H; subst; unfold active_at; gs; try reflexivity.
  - match goal with H : late E _ _ |- _ => specialize (H Hchk) end. replace (v_exit_epoch v) with FAR_FUTURE_EPOCH by congruence.
    f_equal. lia.
  - match goal with H : late E _ _ |- _ => specialize (H Hchk) end. replace (v_exit_epoch v) with FAR_FUTURE_EPOCH by congruence.
    f_equal. lia.
  - match goal with H : late E _ _ |- _ => specialize (H Hchk) end. replace (v_activation_epoch v) with FAR_FUTURE_EPOCH by congruence.
    f_equal. lia.
Qed.

Record looks (s t : BeaconState) : Prop := mkLooks {
  lk_epoch : epoch_of E s <= epoch_of E t;
  lk_active : forall e, e <= epoch_of E s + MAX_SEED_LOOKAHEAD E -> e < FAR_FUTURE_EPOCH -> active_set t e = active_set s e;
  lk_mixes : forall k, (forall w, epoch_of E s <= w <= epoch_of E t + 1 -> w mod EPOCHS_PER_HISTORICAL_VECTOR E <> k) ->
    nthN (randao_mixes t) k = nthN (randao_mixes s) k }.
Lemma looks_refl s : looks s s. Proof. constructor; auto. lia. Qed.
Lemma looks_trans a b c : looks a b -> looks b c -> looks a c.
Proof.
  intros [A1 A2 A3] [B1 B2 B3]. constructor; [lia| |].
  - intros e He Hf. rewrite B2; [apply A2; assumption|lia|assumption].
  - intros k Hk. rewrite B3; [apply A3|]; intros w Hw; apply Hk; lia.
Qed.
Lemma looks_same s t : slot t = slot s -> validators t = validators s -> randao_mixes t = randao_mixes s -> looks s t.
Proof.
  intros H1 H2 H3. constructor; unfold epoch_of, active_set; [rewrite H1; lia| |]; intros; [rewrite H2|rewrite H3]; reflexivity.
Qed.
Lemma looks_prim f l s t : prim E f l s t -> looks s t.
Proof.
  intros H. inversion H; subst; try (apply looks_same; gs; reflexivity).
  - constructor; unfold epoch_of, active_set; gs; [lia| |reflexivity]. intros e He Hf. apply indices_where_ext.
    eapply map_updN_same; [eassumption|]. eapply vstep_active; eauto.
  - constructor; unfold epoch_of, active_set; gs; [lia| |reflexivity]. intros e He Hf. apply indices_where_ext.
    eapply map_updN_same; [eassumption|]. unfold active_at. gs. reflexivity.
  - match goal with H : new_validator _ _ |- _ => destruct H as (_ & _ & Ha & _) end.
    assert (Hs : slot (register f v b s) = slot s /\ randao_mixes (register f v b s) = randao_mixes s)
      by (unfold register; destruct (fork_le Altair f); gs; auto).
    destruct Hs as [Hs Hm]. constructor; unfold epoch_of, active_set; rewrite ?Hs, ?Hm; [lia| |reflexivity].
    rewrite register_validators. intros e _ He. apply indices_where_snoc. unfold active_at. rewrite Ha. lia.
  - constructor; unfold epoch_of, active_set; gs; [lia|reflexivity|]. intros k Hk. apply nthN_updN_ne.
    apply Hk. lia.
  - match goal with H : add E _ 1 = Ok _ |- _ => apply (add_exact E _ _ _ Hchk) in H; subst end.
    constructor; unfold epoch_of, active_set; gs; [lia|reflexivity|]. intros k Hk. apply nthN_updN_ne.
    apply Hk. lia.
  - match goal with H : add E _ 1 = Ok _ |- _ => apply (add_exact E _ _ _ Hchk) in H; subst end.
    constructor; unfold epoch_of, active_set; gs; [|reflexivity|reflexivity].
    destruct (N.eq_dec (SLOTS_PER_EPOCH E) 0) as [->|Hz]; [destruct (slot s), (slot s + 1); cbn; lia|]. apply N.div_le_mono; lia.
Qed.
Lemma looks_evo f s t : evo_all E f s t -> looks s t.
Proof. apply (evo_all_rel E f looks looks_refl looks_trans). intros l. apply looks_prim. Qed.

(** ** Upgrades *)
(** activated validators keep their record, the others stay not activated *)
Record settled (s t : BeaconState) : Prop := mkSettled {
  sd_slot : slot t = slot s;
  sd_mixes : randao_mixes t = randao_mixes s;
  sd_len : lenN (validators t) = lenN (validators s);
  sd_records : forall i v, nthN (validators s) i = Some v -> v_activation_epoch v <> FAR_FUTURE_EPOCH -> nthN (validators t) i = Some v;
  sd_far : forall i v, nthN (validators s) i = Some v -> v_activation_epoch v = FAR_FUTURE_EPOCH ->
    exists w, nthN (validators t) i = Some w /\ v_activation_epoch w = FAR_FUTURE_EPOCH }.
Lemma settled_refl s : settled s s. Proof. constructor; eauto. Qed.
Lemma settled_trans a b c : settled a b -> settled b c -> settled a c.
Proof.
  intros [A1 A2 A3 A4 A5] [B1 B2 B3 B4 B5]. constructor; try congruence; eauto.
  intros i v Hv Hf. destruct (A5 i v Hv Hf) as (w & Hw & Hfw). eauto.
Qed.
Lemma settled_same s t : slot t = slot s -> validators t = validators s -> randao_mixes t = randao_mixes s -> settled s t.
Proof. intros H1 H2 H3. constructor; rewrite ?H2; auto. intros i v Hv Hf. eauto. Qed.
Lemma settled_looks s t : settled s t -> looks s t.
Proof.
  intros [A1 A2 A3 A4 A5]. constructor; unfold epoch_of; rewrite ?A1, ?A2; [lia| |reflexivity].
  intros e _ He. unfold active_set. apply indices_where_ext. apply nthN_ext. intros i. rewrite !nthN_map.
  destruct (nthN (validators s) i) as [v|] eqn:Hv.
  - destruct (N.eq_dec (v_activation_epoch v) FAR_FUTURE_EPOCH) as [Hf|Hf].
    + destruct (A5 i v Hv Hf) as (w & -> & Hw). cbn. f_equal. unfold active_at. rewrite Hw, Hf. lia.
    + rewrite (A4 i v Hv Hf). reflexivity.
  - apply nthN_none in Hv. rewrite <- A3 in Hv. apply nthN_none in Hv. rewrite Hv. reflexivity.
Qed.
Lemma settled_excess i : pres settled (queue_excess_active_balance E i).
Proof.
  intros s. unfold queue_excess_active_balance, sbind, rd, lift, md.
  destruct (idx (balances s) i) as [b| | |]; try apply settled_refl.
  destruct (MIN_ACTIVATION_BALANCE E <? b); [|apply settled_refl].
  destruct (ok_or _ _); try apply settled_refl. cbn [snd]. apply settled_same; gs; reflexivity.
Qed.
Lemma settled_reset s i v : nthN (validators s) i = Some v -> v_activation_epoch v = FAR_FUTURE_EPOCH ->
  settled s (snd (queue_entire_balance_and_reset_validator i s)).
Proof.
  intros Hv Hf. unfold queue_entire_balance_and_reset_validator. unfold sbind at 1, rd at 1.
  destruct (idx (balances s) i) as [b| | |]; try apply settled_refl.
  unfold sbind at 1, md at 1. erewrite run_bind; [|apply mod_validator_run; gs; exact Hv].
  unfold md. cbn [snd]. constructor; gs; try reflexivity.
  - apply lenN_updN.
  - intros j w Hw Hn. rewrite nthN_updN_ne; [exact Hw|]. intros ->. congruence.
  - intros j w Hw Hn. destruct (N.eq_dec j i) as [->|Hj].
    + eexists. split; [apply nthN_updN_eq; eapply nthN_some; eauto|]. gs. exact Hf.
    + exists w. rewrite nthN_updN_ne by congruence. auto.
Qed.
Lemma settled_resets l : forall s, (forall p, In p l -> nthN (map v_activation_epoch (validators s)) (snd p) = Some FAR_FUTURE_EPOCH) ->
  settled s (snd (sfor l (fun p : N * N => queue_entire_balance_and_reset_validator (snd p)) s)).
Proof.
  induction l as [|p l IH]; intros s Hl; [apply settled_refl|]. rewrite sfor_cons.
  assert (Hp : nthN (map v_activation_epoch (validators s)) (snd p) = Some FAR_FUTURE_EPOCH) by (apply Hl; left; reflexivity).
  rewrite nthN_map in Hp. destruct (nthN (validators s) (snd p)) as [v|] eqn:Hv; [|discriminate].
  assert (Hf : v_activation_epoch v = FAR_FUTURE_EPOCH) by (cbn in Hp; congruence).
  pose proof (settled_reset s (snd p) v Hv Hf) as Hk. pose proof (regkeep_reset s (snd p) v Hv Hf) as Hr.
  unfold sbind. destruct (queue_entire_balance_and_reset_validator (snd p) s) as [r s1]. cbn [snd] in Hk, Hr.
  destruct r; try exact Hk. eapply settled_trans; [exact Hk|]. apply IH. intros q Hq.
  destruct Hr as (Ha & _). rewrite Ha. apply Hl. right; exact Hq.
Qed.
Lemma settled_finish : pres settled (electra_finish E).
Proof.
  assert (Hset : forall (m : BeaconState -> BeaconState), (forall s, slot (m s) = slot s /\ validators (m s) = validators s
     /\ randao_mixes (m s) = randao_mixes s) -> pres settled (md m)).
  { intros m Hm s. unfold md. cbn [snd]. destruct (Hm s) as (H1&H2&H3). apply settled_same; assumption. }
  unfold electra_finish.
  pose proof (@pres_bind _ settled settled_trans) as PB.
  apply PB; [apply pres_rd, settled_refl|]. intros a.
  apply PB; [apply Hset; intros; gs; auto|]. intros _.
  apply PB; [apply pres_rd, settled_refl|]. intros c.
  apply PB; [apply Hset; intros; gs; auto|]. intros _.
  apply pres_rd_bind; [apply settled_refl|]. intros s pre Hpre. apply Ok_inj in Hpre. subst pre.
  set (l := key_sort (pre_activation_from (validators s) 0)).
  assert (Hk : settled s (snd (sfor l (fun p : N * N => queue_entire_balance_and_reset_validator (snd p)) s))).
  { apply settled_resets. intros p Hp. subst l.
    eapply Permutation_in in Hp; [|symmetry; apply key_sort_perm]. apply pre_activation_far in Hp as [_ Hp].
    rewrite N.sub_0_r in Hp. exact Hp. }
  unfold sbind at 1. destruct (sfor l _ s) as [r s1]. cbn [snd] in Hk. destruct r; try exact Hk.
  eapply settled_trans; [exact Hk|]. revert s1 Hk.
  intros s1 _. revert s1. change (pres settled (let* comp := rd (fun s => Ok (compounding_from (validators s) 0)) in sfor comp (queue_excess_active_balance E))).
  apply PB; [apply pres_rd, settled_refl|]. intros comp. apply pres_for; [apply settled_refl|apply settled_trans|]. intros i. apply settled_excess.
Qed.
Lemma settled_electra s s' : upgrade_to_electra E s = Ok s' -> settled s s'.
Proof.
  intros H. unfold upgrade_to_electra in H. rinv H.
  match goal with H : (let (_, _) := electra_finish E ?b in _) = _ |- _ => pose proof (settled_finish b) as Hf; destruct (electra_finish E b) as [r p] end.
  rinv H. cbn [snd] in Hf. subst. eapply settled_trans; [|exact Hf]. apply settled_same; reflexivity.
Qed.
Lemma settled_altair s s' : upgrade_to_altair E s = Ok s' -> settled s s'.
Proof. intros H. unfold upgrade_to_altair, translate_participation in H. rinv H. subst. apply settled_same; gs; reflexivity. Qed.
Lemma settled_bellatrix s s' : upgrade_to_bellatrix E s = Ok s' -> settled s s'.
Proof. intros H. unfold upgrade_to_bellatrix in H. rinv H. subst. apply settled_same; reflexivity. Qed.
Lemma settled_capella s s' : upgrade_to_capella E s = Ok s' -> settled s s'.
Proof. intros H. unfold upgrade_to_capella in H. rinv H. subst. apply settled_same; reflexivity. Qed.
Lemma settled_deneb s s' : upgrade_to_deneb E s = Ok s' -> settled s s'.
Proof. intros H. unfold upgrade_to_deneb in H. rinv H. subst. apply settled_same; reflexivity. Qed.

Lemma looks_call p p' : call E p p' -> looks (snd p) (snd p').
Proof.
  intros H; inversion H; subst; cbn [fst snd].
  - pose proof (evpa_transition E f validate sb s) as P. rewrite H0 in P. eapply looks_evo. exact P.
  - pose proof (evpa_block_in_slot E f validate sb s) as P. rewrite H0 in P. eapply looks_evo. exact P.
  - pose proof (evpa_slots E f target s) as P. rewrite H0 in P. eapply looks_evo. exact P.
  - pose proof (evpa_of E f LBlock _ (evp_block E f b) s) as P. rewrite H0 in P. eapply looks_evo. exact P.
  - pose proof (evpa_of E f (LEpoch true) _ (evp_epoch E f) s) as P. rewrite H0 in P. eapply looks_evo. exact P.
  - apply settled_looks, settled_altair. assumption.
  - apply settled_looks, settled_bellatrix. assumption.
  - apply settled_looks, settled_capella. assumption.
  - apply settled_looks, settled_deneb. assumption.
  - apply settled_looks, settled_electra. assumption.
Qed.
Lemma looks_history p p' : history E p p' -> looks (snd p) (snd p').
Proof. induction 1 as [a b H|a|a b c H1 IH1 H2 IH2]; [apply looks_call; exact H|apply looks_refl|eapply looks_trans; eauto]. Qed.

(** ** Seeds and committees *)
Lemma mod_apart w k v : 0 < v -> k < w + v -> w < k -> w mod v <> k mod v.
Proof.
  intros Hv H1 H2 H. pose proof (N.div_mod' w v) as Hw. pose proof (N.div_mod' k v) as Hk.
  rewrite H in Hw. assert (v * (w / v) < v * (k / v)) by lia.
  assert (w / v < k / v) by (apply (N.mul_lt_mono_pos_l v); assumption).
  assert (v * (w / v + 1) <= v * (k / v)) by (apply N.mul_le_mono_l; lia). lia.
Qed.
Lemma get_seed_fixed s t e d : looks s t -> e <= epoch_of E s + MIN_SEED_LOOKAHEAD E -> seed_available E t e -> MIN_SEED_LOOKAHEAD E < EPOCHS_PER_HISTORICAL_VECTOR E ->
  get_seed E t e d = get_seed E s e d.
Proof.
  intros L He Hk Hm. unfold get_seed, sub, usub. destruct (N.leb_spec (MIN_SEED_LOOKAHEAD E) (EPOCHS_PER_HISTORICAL_VECTOR E)); [|lia]. cbn [rbind].
  destruct (add E e (EPOCHS_PER_HISTORICAL_VECTOR E - MIN_SEED_LOOKAHEAD E)) as [b| | |] eqn:Hb; cbn [rbind]; try reflexivity.
  apply (add_exact E _ _ _ Hchk) in Hb. destruct (N.leb_spec 1 b); [|lia]. cbn [rbind]. unfold get_randao_mix, umod.
  destruct (N.eqb_spec (EPOCHS_PER_HISTORICAL_VECTOR E) 0); [reflexivity|]. cbn [rbind]. unfold idx.
  rewrite (lk_mixes s t L); [reflexivity|]. intros w Hw. unfold seed_available in Hk. pose proof (lk_epoch s t L).
  apply mod_apart; lia.
Qed.
Lemma active_fixed s t e : looks s t -> e <= epoch_of E s + MAX_SEED_LOOKAHEAD E -> e < FAR_FUTURE_EPOCH ->
  get_active_validator_indices t e = get_active_validator_indices s e.
Proof. intros L He Hf. rewrite !get_active_ok. apply (lk_active s t L); assumption. Qed.
Lemma committee_fixed s t sl c : looks s t -> MIN_SEED_LOOKAHEAD E <= MAX_SEED_LOOKAHEAD E -> MIN_SEED_LOOKAHEAD E < EPOCHS_PER_HISTORICAL_VECTOR E ->
  sl / SLOTS_PER_EPOCH E <= epoch_of E s + MIN_SEED_LOOKAHEAD E -> sl / SLOTS_PER_EPOCH E < FAR_FUTURE_EPOCH -> seed_available E t (sl / SLOTS_PER_EPOCH E) ->
  get_beacon_committee E t sl c = get_beacon_committee E s sl c.
Proof.
  intros L H1 H2 He Hf Hk. unfold get_beacon_committee, compute_epoch_at_slot, udiv.
  destruct (SLOTS_PER_EPOCH E =? 0); [reflexivity|]. cbn [rbind]. unfold get_committee_count_per_slot.
  rewrite (active_fixed s t _ L (N.le_trans _ _ _ He (proj1 (N.add_le_mono_l _ _ _) H1)) Hf), (get_seed_fixed s t _ _ L He Hk H2). reflexivity.
Qed.

(** ** Proposers *)
Definition stake_kept (s t : BeaconState) : Prop := epoch_of E t = epoch_of E s -> epoch_of E s < FAR_FUTURE_EPOCH ->
  forall i, In i (active_set s (epoch_of E s)) -> effective_balance_of t i = effective_balance_of s i.
Definition quiet (s t : BeaconState) : Prop := looks s t /\ stake_kept s t.
Lemma quiet_refl s : quiet s s. Proof. split; [apply looks_refl|]. intros _ _ i _. reflexivity. Qed.
Lemma quiet_trans a b c : quiet a b -> quiet b c -> quiet a c.
Proof.
  intros [A1 A2] [B1 B2]. split; [eapply looks_trans; eauto|]. intros He Hf i Hi.
  pose proof (lk_epoch a b A1). pose proof (lk_epoch b c B1). assert (Hb : epoch_of E b = epoch_of E a) by lia.
  rewrite B2; [apply A2; assumption|lia|lia|]. rewrite Hb, (lk_active a b A1); [exact Hi|lia|exact Hf].
Qed.
Lemma quiet_same s t : looks s t -> validators t = validators s -> quiet s t.
Proof. intros L H. split; [exact L|]. intros _ _ i _. unfold effective_balance_of. rewrite H. reflexivity. Qed.
Lemma active_lt s e i : In i (active_set s e) -> i < lenN (validators s).
Proof. intros H. apply In_indices_where in H as (v & Hv & _). eapply nthN_some; eauto. Qed.
Lemma quiet_prim f l s t : (forall b, l <> LEpoch b) -> prim E f l s t -> quiet s t.
Proof.
  intros Hl H. pose proof (looks_prim f l s t H) as L.
  inversion H; subst; try (apply quiet_same; [exact L|gs; reflexivity]); try (exfalso; eapply Hl; reflexivity).
  - split; [exact L|]. intros _ _ j _. unfold effective_balance_of. gs. rewrite nthN_updN.
    destruct ((j =? i) && (i <? lenN (validators s))) eqn:Hj; [|reflexivity]. apply andb_true_iff in Hj as [Hj _]. apply N.eqb_eq in Hj. subst j.
    match goal with H : nthN _ i = Some _ |- _ => rewrite H end. match goal with H : vstep _ _ _ _ _ |- _ => inversion H; subst; gs; reflexivity end.
  - split; [exact L|]. intros _ _ j Hj. apply active_lt in Hj. unfold effective_balance_of. rewrite register_validators, nthN_app_l by exact Hj. reflexivity.
Qed.
Lemma quiet_evo f l s t : (forall b, l <> LEpoch b) -> evo E f l s t -> quiet s t.
Proof. intros Hl H. induction H as [a b Hp|a|a b c H1 IH1 H2 IH2]; [eapply quiet_prim; eauto|apply quiet_refl|eapply quiet_trans; eauto]. Qed.
Lemma quiet_settled s t : settled s t -> quiet s t.
Proof.
  intros H. split; [apply settled_looks; exact H|]. intros _ Hf i Hi. apply In_indices_where in Hi as (v & Hv & Ha).
  unfold effective_balance_of. rewrite Hv, (sd_records s t H i v Hv); [reflexivity|]. unfold active_at in Ha. lia.
Qed.
Lemma quiet_advance f s t : advance_slot E f s = (Ok tt, t) -> quiet s t.
Proof.
  intros H. split; [pose proof (evpa_advance E f s) as P; rewrite H in P; eapply looks_evo; exact P|].
  assert (G : quiet s t \/ epoch_of E s < epoch_of E t).
  { unfold advance_slot in H. sinv H.
    match goal with H : process_slot E f s = (_, ?x) |- _ => pose proof (evp_slot E f s) as P; rewrite H in P; cbn [snd] in P; rename x into s1; rename H into Hps end.
    assert (Hs1 : slot s1 = slot s) by (apply slot_frame in Hps; apply Hps).
    rinv H1. rename H1 into Hm. rename H0 into Hn.
    apply (add_exact E _ _ _ Hchk) in Hn. subst. unfold umod in Hm. destruct (N.eqb_spec (SLOTS_PER_EPOCH E) 0) as [|Hz]; [discriminate|]. apply Ok_inj in Hm. subst.
    rewrite Hs1 in *. destruct (N.eqb_spec ((slot s + 1) mod SLOTS_PER_EPOCH E) 0) as [Hm|Hm]; cbn [swhen] in *.
    - right. match goal with H : process_epoch E f s1 = (_, ?y) |- _ => pose proof (evp_epoch E f s1) as Q; rewrite H in Q; cbn [snd] in Q; rename y into s2 end.
      apply frame_slot in Q; [|discriminate]. match goal with H : add E _ 1 = Ok _ |- _ => apply (add_exact E _ _ _ Hchk) in H; subst end.
      unfold epoch_of. gs. rewrite Q, Hs1. pose proof (N.div_mod' (slot s + 1) (SLOTS_PER_EPOCH E)) as Hd. rewrite Hm in Hd.
      apply N.div_lt_upper_bound; [exact Hz|]. lia.
    - left. sinv H2. eapply quiet_trans; [eapply quiet_evo; [|exact P]; discriminate|]. apply (quiet_prim f LSlot); [discriminate|].
      apply p_slot. assumption. }
  destruct G as [[_ G]|G]; [exact G|]. intros He. lia.
Qed.
Lemma quiet_loop f n target : forall s t, slots_loop E f n target s = (Ok tt, t) -> quiet s t.
Proof.
  induction n as [|n IH]; intros s t H; cbn [slots_loop] in H; sinv H; destruct (_ <? target).
  1: sinv H; discriminate.
  1, 3: unfold sret in H; injection H as <-; apply quiet_refl.
  sinv H. match goal with H : advance_slot E f s = (Ok ?u, _) |- _ => destruct u; apply quiet_advance in H end.
  eapply quiet_trans; eauto.
Qed.
Lemma quiet_slots f target s t : process_slots E f target s = (Ok tt, t) -> quiet s t.
Proof. intros H. unfold process_slots in H. sinv H. destruct (target <=? _); sinv H; [discriminate|]. eapply quiet_loop; eauto. Qed.
Lemma quiet_block f b s : quiet s (snd (process_block E f b s)).
Proof. eapply quiet_evo; [|apply evp_block]. discriminate. Qed.
Lemma quiet_transition f v sb s t : state_transition E f v sb s = (Ok tt, t) -> quiet s t.
Proof.
  intros H. unfold state_transition in H. sinv H. match goal with H : process_slots E f _ s = (Ok ?u, _) |- _ => destruct u; apply quiet_slots in H end.
  eapply quiet_trans; [eassumption|]. unfold state_transition_block_in_slot in H. sinv H.
  match goal with H : swhen v _ ?x = (Ok _, ?y) |- quiet ?x _ => assert (y = x) by (destruct v; cbn [swhen] in H; sinv H; reflexivity); subst y end.
  match goal with H : process_block E f ?b ?x = (_, ?y) |- _ => pose proof (quiet_block f b x) as Q; rewrite H in Q; cbn [snd] in Q end.
  destruct v; cbn [swhen] in H; [sinv H|unfold sret in H; injection H as <-]; exact Q.
Qed.
Lemma quiet_chain_call p p' : chain_call E p p' -> quiet (snd p) (snd p').
Proof.
  intros H; inversion H; subst; cbn [snd].
  - eapply quiet_transition; eassumption.
  - eapply quiet_slots; eassumption.
  - pose proof (quiet_block f b s) as Q. rewrite H0 in Q. exact Q.
  - apply quiet_settled, settled_altair. assumption.
  - apply quiet_settled, settled_bellatrix. assumption.
  - apply quiet_settled, settled_capella. assumption.
  - apply quiet_settled, settled_deneb. assumption.
  - apply quiet_settled, settled_electra. assumption.
Qed.
Lemma quiet_chain p p' : SpecFinality.chain E p p' -> quiet (snd p) (snd p').
Proof. induction 1 as [a b H|a|a b c H1 IH1 H2 IH2]; [apply quiet_chain_call; exact H|apply quiet_refl|eapply quiet_trans; eauto]. Qed.

(** the candidates are drawn from the given indices *)
Lemma swap_in l i j l' x : swapN l i j = Ok l' -> In x l' -> In x l.
Proof.
  intros H Hx. unfold swapN in H. rinv H. subst l'. apply In_updN in Hx as [->|Hx]; [eapply nthN_In; eauto|].
  apply In_updN in Hx as [->|Hx]; [eapply nthN_In; eauto|exact Hx].
Qed.
Definition within (A : list N) (p : Pass) : Prop := forall x, In x (fst (fst p)) -> In x A.
Lemma pass_step_in A seed r i j p p' : pass_step E seed r i j p = Ok p' -> within A p -> within A p'.
Proof.
  intros H Hp. destruct p as [[l src] bs]. unfold pass_step in H. rinv H. destruct (_ =? 1); rinv H; subst p'; unfold within in *; cbn [fst] in *; [|exact Hp].
  intros y Hy. apply Hp. eapply swap_in; eauto.
Qed.
Lemma rfold_in {X} A (body : Pass -> X -> res Pass) l : (forall p x p', body p x = Ok p' -> within A p -> within A p') ->
  forall p p', rfold body l p = Ok p' -> within A p -> within A p'.
Proof.
  intros Hb. induction l as [|x l IH]; intros p p' H Hp; cbn [rfold] in H; [apply Ok_inj in H; subst; exact Hp|]. rinv H. eauto.
Qed.
Lemma shuffle_pass_in A seed n l r l' : shuffle_pass E seed n l r = Ok l' -> (forall x, In x l -> In x A) -> forall x, In x l' -> In x A.
Proof.
  intros H Hl. unfold shuffle_pass in H. rinv H.
  match goal with H : rfold _ _ (l, _, _) = Ok ?p |- _ => apply (rfold_in A) in H; [destruct p as [[l1 s1] b1]; rename H into Hin1|intros ? ? ? H'; rinv H'; eapply pass_step_in; eassumption|exact Hl] end.
  rinv H.
  match goal with H : rfold _ _ (l1, _, _) = Ok ?p |- _ => apply (rfold_in A) in H; [destruct p as [[l2 s2] b2]; rename H into Hin2|intros ? ? ? H'; rinv H'; eapply pass_step_in; eassumption|exact Hin1] end.
  apply Ok_inj in H. subst l'. exact Hin2.
Qed.
Lemma shuffled_in A seed l' x : compute_shuffled_indices E A seed = Ok l' -> In x l' -> In x A.
Proof.
  intros H. unfold compute_shuffled_indices in H. destruct A as [|a A]; [apply Ok_inj in H; subst; auto|]. rinv H.
  destruct (SHUFFLE_ROUND_COUNT E =? 0); [discriminate|]. revert H x.
  enough (G : forall rs l, (forall y, In y l -> In y (a :: A)) -> rfold (shuffle_pass E seed (lenN (a :: A))) rs l = Ok l' -> forall y, In y l' -> In y (a :: A)) by (intros H; eapply G; eauto).
  induction rs as [|r rs IH]; intros l Hl H; cbn [rfold] in H; [apply Ok_inj in H; subst; exact Hl|]. rinv H.
  eapply IH; [|exact H]. eapply shuffle_pass_in; eauto.
Qed.
Lemma proposer_loop_fixed A s t seed cand : (forall r c, cand r = Ok c -> In c A) ->
  (forall i, In i A -> i < lenN (validators s) /\ i < lenN (validators t) /\ effective_balance_of t i = effective_balance_of s i) ->
  forall n r, proposer_loop E n t seed cand r = proposer_loop E n s seed cand r.
Proof.
  intros Hc HA. induction n as [|n IH]; intros r; cbn [proposer_loop]; [reflexivity|].
  destruct (cand r) as [c| | |] eqn:Hr; cbn [rbind]; try reflexivity. apply Hc in Hr. destruct (HA c Hr) as (H1 & H2 & H3).
  assert (Hs : sample_proposer_index E t c r seed = sample_proposer_index E s c r seed).
  { unfold sample_proposer_index. destruct (idx (hash E _) _); cbn [rbind]; try reflexivity. unfold idx.
    unfold effective_balance_of in H3. destruct (nthN (validators s) c) as [v|] eqn:Hv; [|apply nthN_none in Hv; lia].
    destruct (nthN (validators t) c) as [w|] eqn:Hw; [|apply nthN_none in Hw; lia]. cbn [rbind expect]. rewrite H3. reflexivity. }
  rewrite Hs. destruct (sample_proposer_index E s c r seed) as [[]| | |]; cbn [rbind]; try reflexivity. apply IH.
Qed.
Lemma proposer_fixed s t sl : quiet s t -> MIN_SEED_LOOKAHEAD E + 2 < EPOCHS_PER_HISTORICAL_VECTOR E -> epoch_of E t = epoch_of E s ->
  sl / SLOTS_PER_EPOCH E = epoch_of E s -> epoch_of E s < FAR_FUTURE_EPOCH ->
  get_beacon_proposer_index E (set_slot sl t) = get_beacon_proposer_index E (set_slot sl s).
Proof.
  intros [L Hq] Hm He Hsl Hf. unfold get_beacon_proposer_index, get_current_epoch, compute_epoch_at_slot, udiv. gs.
  destruct (SLOTS_PER_EPOCH E =? 0); [reflexivity|]. cbn [rbind]. rewrite Hsl.
  assert (Hseed : get_seed E (set_slot sl t) (epoch_of E s) DBeaconProposer = get_seed E (set_slot sl s) (epoch_of E s) DBeaconProposer).
  { transitivity (get_seed E t (epoch_of E s) DBeaconProposer); [unfold get_seed, get_randao_mix; gs; reflexivity|].
    rewrite (get_seed_fixed s t _ _ L); [unfold get_seed, get_randao_mix; gs; reflexivity|lia|unfold seed_available; lia|lia]. }
  rewrite Hseed. destruct (get_seed E (set_slot sl s) (epoch_of E s) DBeaconProposer) as [sd| | |]; cbn [rbind]; try reflexivity.
  assert (Ha : get_active_validator_indices (set_slot sl t) (epoch_of E s) = get_active_validator_indices (set_slot sl s) (epoch_of E s)).
  { unfold get_active_validator_indices. gs. apply (active_fixed s t _ L); [lia|exact Hf]. }
  rewrite Ha. assert (HA : forall i, In i (get_active_validator_indices (set_slot sl s) (epoch_of E s)) -> i < lenN (validators (set_slot sl s)) /\ i < lenN (validators (set_slot sl t))
     /\ effective_balance_of (set_slot sl t) i = effective_balance_of (set_slot sl s) i).
  { intros i Hi. rewrite get_active_ok in Hi. unfold active_set in Hi. gsh Hi. unfold effective_balance_of. gs. change (In i (active_set s (epoch_of E s))) in Hi.
    split; [eapply active_lt; exact Hi|]. split; [|apply Hq; assumption].
    rewrite <- (lk_active s t L) in Hi; [|lia|exact Hf]. eapply active_lt; exact Hi. }
  generalize dependent (get_active_validator_indices (set_slot sl s) (epoch_of E s)). intros A _ HA. unfold compute_proposer_index.
  destruct A as [|a A]; [reflexivity|]. destruct (feat_shuffling E).
  - destruct (compute_shuffled_indices E (a :: A) _) as [l'| | |] eqn:Hl; cbn [rbind]; try reflexivity.
    apply proposer_loop_fixed with (A := a :: A); [|exact HA]. intros r c Hc. apply idx_ok in Hc. eapply shuffled_in; [exact Hl|]. eapply nthN_In; eauto.
  - apply proposer_loop_fixed with (A := a :: A); [|exact HA]. intros r c Hc. rinv Hc. eapply nthN_In; eauto.
Qed.

(** the same for committees as the specification describes them *)
Lemma seed_spec_fixed s t e seed : looks s t -> e <= epoch_of E s + MIN_SEED_LOOKAHEAD E -> seed_available E t e -> MIN_SEED_LOOKAHEAD E < EPOCHS_PER_HISTORICAL_VECTOR E ->
  is_attester_seed E t e seed <-> is_attester_seed E s e seed.
Proof.
  intros L He Hk Hm. unfold is_attester_seed.
  rewrite (lk_mixes s t L); [reflexivity|]. intros w Hw. unfold seed_available in Hk. pose proof (lk_epoch s t L). apply mod_apart; lia.
Qed.
Lemma committee_spec_fixed s t sl c com : looks s t -> MIN_SEED_LOOKAHEAD E <= MAX_SEED_LOOKAHEAD E -> MIN_SEED_LOOKAHEAD E < EPOCHS_PER_HISTORICAL_VECTOR E ->
  sl / SLOTS_PER_EPOCH E <= epoch_of E s + MIN_SEED_LOOKAHEAD E -> sl / SLOTS_PER_EPOCH E < FAR_FUTURE_EPOCH -> seed_available E t (sl / SLOTS_PER_EPOCH E) ->
  committees_in_slot E t (sl / SLOTS_PER_EPOCH E) = committees_in_slot E s (sl / SLOTS_PER_EPOCH E) /\ (is_committee E t sl c com <-> is_committee E s sl c com).
Proof.
  intros L H1 H2 He Hf Hk.
  assert (Ha : active_set t (sl / SLOTS_PER_EPOCH E) = active_set s (sl / SLOTS_PER_EPOCH E))
    by (apply (lk_active s t L); [exact (N.le_trans _ _ _ He (proj1 (N.add_le_mono_l _ _ _) H1))|exact Hf]).
  unfold is_committee, committees_in_slot. rewrite Ha. split; [reflexivity|].
  split; intros (seed & Hs & R); exists seed; (split; [|exact R]); apply (seed_spec_fixed s t _ _ L He Hk H2); exact Hs.
Qed.
End WithEnv.
