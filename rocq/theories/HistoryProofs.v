(** * Invariants of histories (proof file; no model definitions) *)
From Verif Require Import Base BaseLemmas Types Ctx Env Helpers HelpersAltair HelpersElectra Block Epoch Transition StLemmas Frame
  SpecCommon SpecRegistry SpecHistory HelperProofs HelperProofs2 Upgrade Genesis Executor FrameProofs.
From Coq Require Import Relations Permutation.

Section WithEnv.
Variable E : Env.

Lemma weaken_record v v' : later_record v v' -> later_record_across v v'.
Proof. intros (A1 & A2 & A3 & A4 & A5). unfold later_record_across. auto 6. Qed.
Lemma registry_later_weaken s s' : registry_later s s' -> registry_later_across s s'.
Proof. intros H i v Hv. destruct (H i v Hv) as (v' & H1 & H2 & H3). exists v'. auto using weaken_record. Qed.
Lemma across_refl s : registry_later_across s s.
Proof. apply registry_later_weaken, registry_later_refl. Qed.
Lemma across_record_trans a b c : later_record_across a b -> later_record_across b c -> later_record_across a c.
Proof.
  intros (A1 & A2 & A3 & A4) (B1 & B2 & B3 & B4). unfold later_record_across.
  split; [congruence|]. split; [auto|]. split.
  - intros H. destruct (A3 H) as [Ha Hae]. rewrite <- Ha in H. destruct (B3 H) as [Hb Hbe].
    split; [congruence|]. intros He. specialize (Hae He). rewrite <- Hae in He. rewrite (Hbe He). exact Hae.
  - intros H. destruct (A4 H) as [Ha Hw]. rewrite <- Ha in H. destruct (B4 H) as [Hb Hw']. split; [congruence|lia].
Qed.
Lemma across_trans a b c : registry_later_across a b -> registry_later_across b c -> registry_later_across a c.
Proof.
  intros H1 H2 i v Hv. destruct (H1 i v Hv) as (v1 & Hv1 & R1 & C1). destruct (H2 i v1 Hv1) as (v2 & Hv2 & R2 & C2).
  exists v2. split; [exact Hv2|]. split; [eapply across_record_trans; eauto|eapply later_credentials_trans; eauto].
Qed.

(** ** The electra upgrade *)
Definition regkeep (s s' : BeaconState) : Prop :=
  map v_activation_epoch (validators s') = map v_activation_epoch (validators s)
  /\ map v_public_key (validators s') = map v_public_key (validators s)
  /\ map v_exit_epoch (validators s') = map v_exit_epoch (validators s)
  /\ lenN (balances s') = lenN (balances s)
  /\ previous_epoch_participation s' = previous_epoch_participation s
  /\ current_epoch_participation s' = current_epoch_participation s
  /\ inactivity_scores s' = inactivity_scores s
  /\ registry_later_across s s'.
Lemma regkeep_refl s : regkeep s s.
Proof. repeat split. apply across_refl. Qed.
Lemma regkeep_trans a b c : regkeep a b -> regkeep b c -> regkeep a c.
Proof.
  intros (A1&A2&A3&A4&A5&A6&A7&A8) (B1&B2&B3&B4&B5&B6&B7&B8). unfold regkeep.
  repeat (split; [congruence|]). eapply across_trans; eauto.
Qed.
Lemma regkeep_excess i : pres regkeep (queue_excess_active_balance E i).
Proof.
  intros s. unfold queue_excess_active_balance, sbind, rd, lift, md.
  destruct (idx (balances s) i) as [b| | |]; try apply regkeep_refl.
  destruct (MIN_ACTIVATION_BALANCE E <? b); [|apply regkeep_refl].
  destruct (ok_or _ _); try apply regkeep_refl. cbn [snd]. unfold regkeep. gs. rewrite lenN_updN. repeat split.
  apply registry_later_weaken, registry_later_same. gs. reflexivity.
Qed.
Lemma map_upd_same {B} (g : Validator -> B) vs i v v' : nthN vs i = Some v -> g v' = g v -> map g (updN vs i v') = map g vs.
Proof. intros Hv Hg. rewrite map_updN, Hg. apply updN_id. rewrite nthN_map, Hv. reflexivity. Qed.
Lemma regkeep_reset s i v : nthN (validators s) i = Some v -> v_activation_epoch v = FAR_FUTURE_EPOCH ->
  regkeep s (snd (queue_entire_balance_and_reset_validator i s)).
Proof.
  intros Hv Hf. unfold queue_entire_balance_and_reset_validator. unfold sbind at 1, rd at 1.
  destruct (idx (balances s) i) as [b| | |]; try apply regkeep_refl.
  unfold sbind at 1, md at 1. erewrite run_bind; [|apply mod_validator_run; gs; exact Hv].
  unfold md. cbn [snd]. unfold regkeep. gs.
  repeat (split; [try (eapply map_upd_same; [exact Hv|gs; reflexivity]); try apply lenN_updN; try reflexivity|]).
  intros j w Hw. gs. rewrite nthN_updN. destruct ((j =? i) && (i <? lenN (validators s))) eqn:Hj.
  - apply andb_true_iff in Hj as [Hj _]. apply N.eqb_eq in Hj. subst j. assert (w = v) by congruence. subst w.
    eexists. split; [reflexivity|]. split; [|left; gs; reflexivity]. unfold later_record_across. gs.
    split; [reflexivity|]. split; [auto|]. split; [intros Hc; contradiction|]. intros _. split; [reflexivity|lia].
  - exists w. split; [exact Hw|]. split; [apply weaken_record, later_record_refl|apply later_credentials_refl].
Qed.
Lemma regkeep_resets l : forall s, (forall p, In p l -> nthN (map v_activation_epoch (validators s)) (snd p) = Some FAR_FUTURE_EPOCH) ->
  regkeep s (snd (sfor l (fun p : N * N => queue_entire_balance_and_reset_validator (snd p)) s)).
Proof.
  induction l as [|p l IH]; intros s Hl; [apply regkeep_refl|]. rewrite sfor_cons.
  assert (Hp : nthN (map v_activation_epoch (validators s)) (snd p) = Some FAR_FUTURE_EPOCH) by (apply Hl; left; reflexivity).
  rewrite nthN_map in Hp. destruct (nthN (validators s) (snd p)) as [v|] eqn:Hv; [|discriminate].
  assert (Hk : regkeep s (snd (queue_entire_balance_and_reset_validator (snd p) s))).
  { apply regkeep_reset with (v := v); [exact Hv|]. cbn in Hp. congruence. }
  unfold sbind. destruct (queue_entire_balance_and_reset_validator (snd p) s) as [r s1]. cbn [snd] in Hk.
  destruct r; try exact Hk. eapply regkeep_trans; [exact Hk|]. apply IH. intros q Hq.
  destruct Hk as (Ha & _). rewrite Ha. apply Hl. right; exact Hq.
Qed.
Lemma pre_activation_far vs : forall k p, In p (pre_activation_from vs k) ->
  k <= snd p /\ nthN (map v_activation_epoch vs) (snd p - k) = Some FAR_FUTURE_EPOCH.
Proof.
  induction vs as [|v vs IH]; intros k p Hp; cbn [pre_activation_from] in Hp; [destruct Hp|].
  apply in_app_iff in Hp as [Hp|Hp].
  - destruct (N.eqb_spec (v_activation_epoch v) FAR_FUTURE_EPOCH) as [Hf|]; [|destruct Hp].
    destruct Hp as [<-|[]]. cbn [snd]. split; [lia|]. replace (k - k) with 0 by lia. cbn [map]. rewrite nthN_0. congruence.
  - apply IH in Hp as [Hk Hn]. split; [lia|]. cbn [map].
    replace (snd p - k) with ((snd p - (k + 1)) + 1) by lia. rewrite nthN_succ. exact Hn.
Qed.
Lemma regkeep_finish : pres regkeep (electra_finish E).
Proof.
  assert (Hset : forall (m : BeaconState -> BeaconState), (forall s, validators (m s) = validators s /\ balances (m s) = balances s
     /\ previous_epoch_participation (m s) = previous_epoch_participation s /\ current_epoch_participation (m s) = current_epoch_participation s
     /\ inactivity_scores (m s) = inactivity_scores s) -> pres regkeep (md m)).
  { intros m Hm s. unfold md. cbn [snd]. destruct (Hm s) as (H1&H2&H3&H4&H5). unfold regkeep. rewrite H1, H2, H3, H4, H5.
    repeat split. apply registry_later_weaken, registry_later_same, H1. }
  unfold electra_finish.
  pose proof (@pres_bind _ regkeep regkeep_trans) as PB.
  apply PB; [apply pres_rd, regkeep_refl|]. intros a.
  apply PB; [apply Hset; intros; gs; auto|]. intros _.
  apply PB; [apply pres_rd, regkeep_refl|]. intros c.
  apply PB; [apply Hset; intros; gs; auto|]. intros _.
  apply pres_rd_bind; [apply regkeep_refl|]. intros s pre Hpre. apply Ok_inj in Hpre. subst pre.
  set (l := key_sort (pre_activation_from (validators s) 0)).
  assert (Hk : regkeep s (snd (sfor l (fun p : N * N => queue_entire_balance_and_reset_validator (snd p)) s))).
  { apply regkeep_resets. intros p Hp. subst l.
    eapply Permutation_in in Hp; [|symmetry; apply key_sort_perm]. apply pre_activation_far in Hp as [_ Hp].
    rewrite N.sub_0_r in Hp. exact Hp. }
  unfold sbind at 1. destruct (sfor l _ s) as [r s1]. cbn [snd] in Hk. destruct r; try exact Hk.
  eapply regkeep_trans; [exact Hk|]. revert s1 Hk.
  intros s1 _. revert s1. change (pres regkeep (let* comp := rd (fun s => Ok (compounding_from (validators s) 0)) in sfor comp (queue_excess_active_balance E))).
  apply PB; [apply pres_rd, regkeep_refl|]. intros comp. apply pres_for; [apply regkeep_refl|apply regkeep_trans|]. intros i. apply regkeep_excess.
Qed.
Lemma upgrade_electra_regkeep s s' : upgrade_to_electra E s = Ok s' -> regkeep s s'.
Proof.
  intros H. unfold upgrade_to_electra in H. rinv H.
  match goal with H : (let (_, _) := electra_finish E ?b in _) = _ |- _ => pose proof (regkeep_finish b) as Hf; destruct (electra_finish E b) as [r p] end.
  rinv H. cbn [snd] in Hf. subst. eapply regkeep_trans; [|exact Hf]. unfold regkeep, electra_base. cbn.
  repeat split. apply registry_later_weaken, registry_later_same. reflexivity.
Qed.

(** ** The other upgrades keep the registry *)
Lemma rfold_len {A B} (body : list B -> A -> res (list B)) l : (forall p x p', body p x = Ok p' -> lenN p' = lenN p) ->
  forall p p', rfold body l p = Ok p' -> lenN p' = lenN p.
Proof.
  intros Hb. induction l as [|x l IH]; intros p p' H; cbn [rfold] in H; [apply Ok_inj in H; congruence|].
  rinv H. apply IH in H. rewrite H. eapply Hb; eauto.
Qed.
Lemma translate_len s l p p' : rfold (translate_attestation E s) l p = Ok p' -> lenN p' = lenN p.
Proof.
  apply rfold_len. clear p p'. intros p x p' H. unfold translate_attestation in H. rinv H. revert H.
  apply rfold_len. clear p p'. intros p i p' H. unfold translate_one in H. revert H.
  apply rfold_len. clear p p'. intros p fl p' H. rinv H. subst. apply lenN_updN.
Qed.
Lemma upgrade_altair_registry s s' : upgrade_to_altair E s = Ok s' ->
  validators s' = validators s /\ balances s' = balances s /\ lenN (previous_epoch_participation s') = lenN (validators s)
  /\ lenN (current_epoch_participation s') = lenN (validators s) /\ lenN (inactivity_scores s') = lenN (validators s).
Proof.
  intros H. unfold upgrade_to_altair, translate_participation in H. rinv H. subst. gs.
  match goal with H : rfold _ _ _ = Ok _ |- _ => apply translate_len in H; rewrite H end.
  unfold altair_base. cbn. unfold repeatN, lenN. rewrite repeat_length. repeat split; lia.
Qed.
Definition same_registry (s s' : BeaconState) : Prop :=
  validators s' = validators s /\ balances s' = balances s /\ previous_epoch_participation s' = previous_epoch_participation s
  /\ current_epoch_participation s' = current_epoch_participation s /\ inactivity_scores s' = inactivity_scores s.
Lemma upgrade_bellatrix_registry s s' : upgrade_to_bellatrix E s = Ok s' -> same_registry s s'.
Proof. intros H. unfold upgrade_to_bellatrix in H. rinv H. subst. repeat split. Qed.
Lemma upgrade_capella_registry s s' : upgrade_to_capella E s = Ok s' -> same_registry s s'.
Proof. intros H. unfold upgrade_to_capella in H. rinv H. subst. repeat split. Qed.
Lemma upgrade_deneb_registry s s' : upgrade_to_deneb E s = Ok s' -> same_registry s s'.
Proof. intros H. unfold upgrade_to_deneb in H. rinv H. subst. repeat split. Qed.

(** ** Calls *)
Definition in_fork (p p' : Fork * BeaconState) : Prop := fst p' = fst p /\ evo_all E (fst p) (snd p) (snd p').
Lemma call_cases p p' : call E p p' -> in_fork p p'
  \/ (fst p = Phase0 /\ fst p' = Altair /\ upgrade_to_altair E (snd p) = Ok (snd p'))
  \/ (fst p' = next_fork (fst p) /\ fst p <> Phase0 /\ fst p' <> Electra /\ same_registry (snd p) (snd p'))
  \/ (fst p = Deneb /\ fst p' = Electra /\ regkeep (snd p) (snd p')).
Proof.
  intros H; inversion H; subst; cbn [fst snd].
  1-5: left; split; [reflexivity|]; cbn [fst snd].
  - pose proof (evpa_transition E f validate sb s) as P. rewrite H0 in P. exact P.
  - pose proof (evpa_block_in_slot E f validate sb s) as P. rewrite H0 in P. exact P.
  - pose proof (evpa_slots E f target s) as P. rewrite H0 in P. exact P.
  - pose proof (evpa_of E f LBlock _ (evp_block E f b) s) as P. rewrite H0 in P. exact P.
  - pose proof (evpa_of E f (LEpoch true) _ (evp_epoch E f) s) as P. rewrite H0 in P. exact P.
  - right; left. auto.
  - right; right; left. repeat split; try discriminate; apply (upgrade_bellatrix_registry s s' H0).
  - right; right; left. repeat split; try discriminate; apply (upgrade_capella_registry s s' H0).
  - right; right; left. repeat split; try discriminate; apply (upgrade_deneb_registry s s' H0).
  - right; right; right. repeat split; apply (upgrade_electra_regkeep s s' H0).
Qed.
Lemma call_aligned p p' : call E p p' -> registry_aligned (fst p) (snd p) -> registry_aligned (fst p') (snd p').
Proof.
  intros H Ha. destruct (call_cases _ _ H) as [[Hf He]|[(Hf & Hf' & Hu)|[(Hf & Hne & _ & Hs)|(Hf & Hf' & Hk)]]].
  - rewrite Hf. revert Ha. apply (evo_all_inv E (fst p) (fun s => registry_aligned (fst p) s)) with (s' := snd p'); [|exact He].
    intros l s s'. apply aligned_prim.
  - apply upgrade_altair_registry in Hu as (H1 & H2 & H3 & H4 & H5). destruct Ha as [Hb _]. unfold registry_aligned.
    rewrite H1, H2, H3, H4, H5. auto.
  - destruct Hs as (H1&H2&H3&H4&H5). unfold registry_aligned in *. rewrite H1, H2, H3, H4, H5.
    destruct Ha as [Hb Hr]. specialize (Hr Hne). auto.
  - destruct Hk as (H1&H2&H3&H4&H5&H6&H7&_). unfold registry_aligned in *. rewrite H4, H5, H6, H7.
    assert (Hl : lenN (validators (snd p')) = lenN (validators (snd p))).
    { rewrite <- (lenN_map v_activation_epoch), H1, lenN_map. reflexivity. }
    rewrite Hl. destruct Ha as [Hb Hr]. rewrite Hf in Hr. specialize (Hr ltac:(discriminate)). auto.
Qed.
Lemma call_keys p p' : call E p p' -> unique_keys (snd p) -> unique_keys (snd p').
Proof.
  intros H Ha. destruct (call_cases _ _ H) as [[Hf He]|[(Hf & Hf' & Hu)|[(Hf & Hne & _ & Hs)|(Hf & Hf' & Hk)]]].
  - revert Ha. apply (evo_all_inv E (fst p) unique_keys) with (s' := snd p'); [|exact He]. intros l s s'. apply keys_prim.
  - apply upgrade_altair_registry in Hu as (H1 & _). unfold unique_keys. rewrite H1. exact Ha.
  - destruct Hs as (H1 & _). unfold unique_keys. rewrite H1. exact Ha.
  - destruct Hk as (_ & H2 & _). unfold unique_keys. rewrite H2. exact Ha.
Qed.
Lemma call_across p p' : call E p p' -> registry_later_across (snd p) (snd p')
  /\ (fst p = Electra \/ fst p' <> Electra -> registry_later (snd p) (snd p')).
Proof.
  intros H. destruct (call_cases _ _ H) as [[Hf He]|[(Hf & Hf' & Hu)|[(Hf & Hne & _ & Hs)|(Hf & Hf' & Hk)]]].
  - assert (R : registry_later (snd p) (snd p')).
    { apply (evo_all_rel E (fst p) registry_later registry_later_refl registry_later_trans); [|exact He]. intros l s s'. apply later_prim. }
    split; [apply registry_later_weaken|intros _]; exact R.
  - apply upgrade_altair_registry in Hu as (H1 & _). apply registry_later_same in H1. auto using registry_later_weaken.
  - destruct Hs as (H1 & _). apply registry_later_same in H1. auto using registry_later_weaken.
  - destruct Hk as (_&_&_&_&_&_&_&H8). split; [exact H8|]. rewrite Hf, Hf'. intros [Hc|Hc]; [discriminate|contradiction].
Qed.
Lemma call_fork p p' : call E p p' -> fork_num (fst p) <= fork_num (fst p').
Proof. intros H; inversion H; subst; cbn [fst fork_num]; lia. Qed.
Lemma history_fork p p' : history E p p' -> fork_num (fst p) <= fork_num (fst p').
Proof. induction 1 as [a b H|a|a b c H1 IH1 H2 IH2]; [apply call_fork; exact H|lia|lia]. Qed.
Lemma history_aligned p p' : history E p p' -> registry_aligned (fst p) (snd p) -> registry_aligned (fst p') (snd p').
Proof. induction 1 as [a b H|a|a b c H1 IH1 H2 IH2]; [apply call_aligned; exact H|auto|auto]. Qed.
Lemma history_keys p p' : history E p p' -> unique_keys (snd p) -> unique_keys (snd p').
Proof. induction 1 as [a b H|a|a b c H1 IH1 H2 IH2]; [apply call_keys; exact H|auto|auto]. Qed.
Lemma history_across p p' : history E p p' -> registry_later_across (snd p) (snd p')
  /\ (fst p = Electra \/ fst p' <> Electra -> registry_later (snd p) (snd p')).
Proof.
  induction 1 as [a b H|a|a b c H1 IH1 H2 IH2]; [apply call_across; exact H| |].
  - split; [apply across_refl|intros _; apply registry_later_refl].
  - destruct IH1 as [A1 B1], IH2 as [A2 B2]. split; [eapply across_trans; eauto|]. intros Hf.
    apply history_fork in H1. apply history_fork in H2.
    assert (Hb : (fst a = Electra \/ fst b <> Electra) /\ (fst b = Electra \/ fst c <> Electra)).
    { destruct (fst a), (fst b), (fst c); cbn [fork_num] in *; try lia; split; try (left; reflexivity); try (right; discriminate);
      destruct Hf as [Hf|Hf]; try discriminate; contradiction. }
    eapply registry_later_trans; [apply B1|apply B2]; tauto.
Qed.

(** ** Genesis *)
Definition geno (f : Fork) (s s' : BeaconState) : Prop :=
  (registry_aligned f s -> registry_aligned f s') /\ (unique_keys s -> unique_keys s').
Lemma geno_refl f s : geno f s s. Proof. split; auto. Qed.
Lemma geno_trans f a b c : geno f a b -> geno f b c -> geno f a c.
Proof. intros [A1 A2] [B1 B2]. split; auto. Qed.
Lemma geno_evo {A} f l (m : St BeaconState A) : evp E f l m -> pres (geno f) m.
Proof.
  intros H s. specialize (H s). apply evo_all_of in H. split.
  - apply (evo_all_inv E f (registry_aligned f)); [|exact H]. intros k a b. apply aligned_prim.
  - apply (evo_all_inv E f unique_keys); [|exact H]. intros k a b. apply keys_prim.
Qed.
Lemma geno_mod f i g : (forall v, v_public_key (g v) = v_public_key v) -> pres (geno f) (mod_validator i g).
Proof.
  intros Hg s. destruct (nthN (validators s) i) as [v|] eqn:Hv.
  2: { unfold mod_validator, sbind, rd, md, idx. rewrite Hv. apply geno_refl. }
  rewrite (mod_validator_run s i g v Hv). cbn [snd].
  unfold geno, registry_aligned, unique_keys. gs. rewrite lenN_updN. split; [auto|].
  rewrite (map_upd_same v_public_key _ _ _ _ Hv (Hg v)). auto.
Qed.
Lemma geno_md f m : (forall s, validators (m s) = validators s /\ balances (m s) = balances s
     /\ previous_epoch_participation (m s) = previous_epoch_participation s /\ current_epoch_participation (m s) = current_epoch_participation s
     /\ inactivity_scores (m s) = inactivity_scores s) -> pres (geno f) (md m).
Proof.
  intros Hm s. unfold md. cbn [snd]. destruct (Hm s) as (H1&H2&H3&H4&H5). unfold geno, registry_aligned, unique_keys.
  rewrite H1, H2, H3, H4, H5. auto.
Qed.
Lemma geno_deposits f l : forall leaves, pres (geno f) (genesis_deposits E f l leaves).
Proof.
  pose proof (@pres_bind _ (geno f) (geno_trans f)) as PB.
  induction l as [|d l IH]; intros leaves; cbn [genesis_deposits]; [apply pres_ret, geno_refl|].
  apply PB; [apply pres_lift, geno_refl|]. intros r.
  apply PB; [apply geno_md; intros; gs; auto|]. intros _.
  apply PB; [apply (geno_evo f LBlock), evp_deposit|]. intros _. apply IH.
Qed.
Lemma geno_steps f l : pres (geno f) (genesis_steps E f l).
Proof.
  pose proof (@pres_bind _ (geno f) (geno_trans f)) as PB. unfold genesis_steps.
  apply PB; [apply geno_deposits|]. intros _.
  apply PB.
  { apply pres_when; [apply geno_refl|]. unfold genesis_drain_pending. apply PB; [apply pres_rd, geno_refl|]. intros pl.
    apply PB; [apply geno_md; intros; gs; auto|]. intros _. apply pres_for; [apply geno_refl|apply geno_trans|].
    intros d. apply (geno_evo f LBlock), evp_increase. }
  intros _. apply PB; [apply pres_rd, geno_refl|]. intros n.
  apply PB.
  { apply pres_for; [apply geno_refl|apply geno_trans|]. intros i. unfold genesis_activation_step.
    apply PB; [apply pres_rd, geno_refl|]. intros b. apply PB; [apply pres_lift, geno_refl|]. intros e.
    apply PB; [apply geno_mod; intros; gs; reflexivity|]. intros _. apply pres_when; [apply geno_refl|].
    apply geno_mod. intros. gs. reflexivity. }
  intros _. apply PB; [apply pres_rd, geno_refl|]. intros r.
  apply PB; [apply geno_md; intros; gs; auto|]. intros _. apply pres_when; [apply geno_refl|].
  apply PB; [apply pres_rd, geno_refl|]. intros c. apply geno_md; intros; gs; auto.
Qed.
Lemma genesis_aligned f bh ts ds h s : initialize_beacon_state_from_eth1 E f bh ts ds h = Ok s ->
  registry_aligned f s /\ unique_keys s.
Proof.
  intros H. unfold initialize_beacon_state_from_eth1 in H. rinv H.
  match goal with H : (let (_, _) := genesis_steps E f ds ?b in _) = _ |- _ => pose proof (geno_steps f ds b) as Hf; destruct (genesis_steps E f ds b) as [r p] end.
  rinv H. cbn [snd] in Hf. subst. destruct Hf as [Hf1 Hf2]. split; [apply Hf1|apply Hf2]; unfold registry_aligned, unique_keys, genesis_base; cbn.
  - auto.
  - constructor.
Qed.

(** ** The executor's effect is a history *)
Lemma hist_refl p : history E p p. Proof. apply rt_refl. Qed.
Lemma hist_trans a b c : history E a b -> history E b c -> history E a c. Proof. apply rt_trans. Qed.
Lemma hist_call p p' : call E p p' -> history E p p'. Proof. apply rt_step. Qed.
Lemma to_next_fork_history g s r s' : to_next_fork E g s = (r, s') -> history E (g, s) (g, s').
Proof.
  unfold to_next_fork, sbind, lift. destruct (mul E _ _) as [sl| | |]; intros H; try (injection H as <- <-; apply hist_refl).
  apply hist_call, (call_slots E g sl s r s' H).
Qed.
Lemma upgrade_to_history g s s' : upgrade_to E (next_fork g) s = Ok s' -> fork_num g < 4 -> history E (g, s) (next_fork g, s').
Proof.
  intros H Hg. destruct g; cbn [next_fork upgrade_to fork_num] in *; try lia; apply hist_call; constructor; exact H.
Qed.
Lemma chain_history n : forall g s s', chain E n g s = Ok s' -> fork_num g + N.of_nat n <= 4 ->
  exists g', fork_num g' = fork_num g + N.of_nat n /\ history E (g, s) (g', s').
Proof.
  induction n as [|n IH]; intros g s s' H Hn; cbn [chain] in H.
  - apply Ok_inj in H. subst. exists g. split; [lia|apply hist_refl].
  - destruct (to_next_fork E g s) as [r s1] eqn:Ht. rinv H. apply IH in H as (g' & Hg' & Hh).
    + exists g'. assert (Hnum : fork_num (next_fork g) = fork_num g + 1) by (destruct g; cbn [next_fork fork_num] in *; lia).
      split; [lia|]. eapply hist_trans; [eapply to_next_fork_history; eauto|]. eapply hist_trans; [|exact Hh].
      apply upgrade_to_history; [eassumption|lia].
    + assert (Hnum : fork_num (next_fork g) = fork_num g + 1) by (destruct g; cbn [next_fork fork_num] in *; lia). lia.
Qed.
Lemma executor_history f v sb st r st' : fork_num f <= 4 -> apply_block_with_validation E f v sb st = (r, st') -> history E st st'.
Proof.
  intros Hf H. destruct st as [g s]. unfold apply_block_with_validation in H.
  destruct (N.ltb_spec (fork_num f) (fork_num g)) as [|Hge]; [injection H as <- <-; apply hist_refl|].
  destruct (N.eqb_spec (fork_num f) (fork_num g)) as [Heq|Hne].
  - assert (f = g) by (destruct f, g; cbn [fork_num] in Heq; congruence). subst g.
    destruct (state_transition E f v sb s) as [r1 s1] eqn:Hs. injection H as <- <-. apply hist_call. econstructor; exact Hs.
  - destruct (to_next_fork E g s) as [r0 s1] eqn:Ht. apply to_next_fork_history in Ht.
    match type of H with match ?o with _ => _ end = _ => destruct o as [s'|e| |] eqn:Hout end;
      injection H as <- <-; try exact Ht.
    rinv Hout. eapply hist_trans; [exact Ht|].
    match goal with H : upgrade_to _ _ _ = Ok _ |- _ => apply upgrade_to_history in H; [rename H into Hu|lia] end.
    eapply hist_trans; [exact Hu|].
    assert (Hnum : fork_num (next_fork g) = fork_num g + 1) by (destruct g; cbn [next_fork fork_num] in *; lia).
    match goal with H : chain _ _ _ _ = Ok _ |- _ => apply chain_history in H; [destruct H as (g' & Hg' & Hh)|lia] end.
    assert (g' = f) by (destruct f, g'; cbn [fork_num] in *; try reflexivity; lia). subst g'.
    eapply hist_trans; [exact Hh|]. unfold apply_after_upgrade in Hout.
    match type of Hout with context [state_transition E f v sb ?x] => set (z := x) in * end.
    destruct (bk_slot (sb_message sb) =? slot z).
    + destruct (state_transition_block_in_slot E f v sb z) as [r2 s2] eqn:Hs. rinv Hout. subst. apply hist_call. eapply call_block_in_slot; exact Hs.
    + destruct (state_transition E f v sb z) as [r2 s2] eqn:Hs. rinv Hout. subst. apply hist_call. eapply call_transition; exact Hs.
Qed.
End WithEnv.
