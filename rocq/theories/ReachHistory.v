(** * Invariants of reachable states: upgrades, genesis and histories (proof file) *)
From Verif Require Import Base BaseLemmas Types Ctx Env Helpers HelpersAltair HelpersElectra Block Epoch Transition Upgrade Genesis Executor StLemmas
  SpecCommon Frame FrameProofs SpecReach Reach SpecHistory SpecRegistry HistoryProofs.
From Coq Require Import Relations Permutation.

Section WithEnv.
Variable E : Env.
Hypothesis delay_pos : 1 <= MIN_VALIDATOR_WITHDRAWABILITY_DELAY E.

Lemma inv_weaken f s : well_formed E f s -> well_formed E Phase0 s.
Proof. intros [L R Z S P Q V]. constructor; try assumption. intros H. contradiction. Qed.

(** ** Upgrades *)
Lemma up_altair s s' : upgrade_to_altair E s = Ok s' -> well_formed E Phase0 s -> well_formed E Altair s'.
Proof.
  intros H Hs. unfold upgrade_to_altair, translate_participation in H. rinv H. subst.
  match goal with H : get_next_sync_committee E ?p = Ok ?c |- _ => apply next_committee_valid in H; [|exact delay_pos]; rename H into Hc; set (post := p) in * end.
  assert (Hv : validators post = validators s) by (unfold post; gs; reflexivity).
  destruct Hs as [L [R1 R2 R3 R4] Z S P Q V]. constructor.
  - change (lenN (balances s) = lenN (validators s)). exact L.
  - constructor; try (intros ? []). change (validators s <> [] -> 0 < lenN (validators s)). intros Hn. destruct (validators s); [contradiction|rewrite lenN_cons; lia].
  - reflexivity.
  - intros _. split; exact Hc.
  - exact P.
  - intros _. unfold queue_epochs. cbn. rewrite far_is. unfold U64. lia.
  - exact V.
Qed.
Lemma up_bellatrix s s' : upgrade_to_bellatrix E s = Ok s' -> well_formed E Altair s -> well_formed E Bellatrix s'.
Proof.
  intros H Hs. unfold upgrade_to_bellatrix in H. rinv H. subst.
  destruct Hs as [L [R1 R2 R3 R4] Z S P Q V]. constructor; cbn.
  - exact L.
  - constructor; cbn; try (intros ? []). intros Hn. destruct (validators s); [contradiction|rewrite lenN_cons; lia].
  - reflexivity.
  - intros _. exact (S ltac:(discriminate)).
  - exact P.
  - intros _. unfold queue_epochs. cbn. rewrite far_is. unfold U64. lia.
  - exact V.
Qed.
Lemma up_capella s s' : upgrade_to_capella E s = Ok s' -> well_formed E Bellatrix s -> well_formed E Capella s'.
Proof.
  intros H Hs. unfold upgrade_to_capella in H. rinv H. subst.
  destruct Hs as [L [R1 R2 R3 R4] Z S P Q V]. constructor; cbn.
  - exact L.
  - constructor; cbn; try (intros ? []). intros Hn. destruct (validators s); [contradiction|rewrite lenN_cons; lia].
  - reflexivity.
  - intros _. exact (S ltac:(discriminate)).
  - exact P.
  - intros _. unfold queue_epochs. cbn. rewrite far_is. unfold U64. lia.
  - exact V.
Qed.
Lemma up_deneb s s' : upgrade_to_deneb E s = Ok s' -> well_formed E Capella s -> well_formed E Deneb s'.
Proof.
  intros H Hs. unfold upgrade_to_deneb in H. rinv H. subst.
  destruct Hs as [L [R1 R2 R3 R4] Z S P Q V]. constructor; cbn.
  - exact L.
  - constructor; cbn; try (intros ? []). exact R4.
  - exact Z.
  - intros _. exact (S ltac:(discriminate)).
  - exact P.
  - intros _. unfold queue_epochs. cbn. rewrite far_is. unfold U64. lia.
  - exact V.
Qed.
Definition waiting (s : BeaconState) (i : N) : Prop := forall v, nthN (validators s) i = Some v -> v_activation_epoch v = FAR_FUTURE_EPOCH.
Lemma at_reset i s : well_formed E Electra s -> waiting s i -> well_formed E Electra (snd (queue_entire_balance_and_reset_validator i s)).
Proof.
  intros Hs Hw. unfold queue_entire_balance_and_reset_validator. apply at_rd; [exact Hs|]. intros b Hb. apply idx_ok, nthN_some in Hb.
  apply at_md.
  assert (H1 : well_formed E Electra (set_balances (updN (balances s) i 0) s)) by (irr s Hs).
  apply at_bind.
  { apply inv_mod; [|exact H1]. gs. intros v Hv. split; [reflexivity|]. intros _ [L1 L2 L3 L4 L5 L6]. specialize (Hw v Hv). constructor; gs; try assumption; lia. }
  intros u t Ht Hit. cbn [md snd]. apply inv_pbd; [|exact Hit]. intros d Hd. apply in_app_or in Hd as [Hd|[<-|[]]]; [left; exact Hd|right]. cbn [pbd_index].
  assert (Hv : exists v, nthN (validators s) i = Some v) by (apply nthN_lt; rewrite <- (n_len _ _ _ Hs); exact Hb).
  destruct Hv as [v Hv]. rewrite (mod_validator_run (set_balances (updN (balances s) i 0) s) i _ v Hv) in Ht. injection Ht as <- <-. gs. rewrite lenN_updN, <- (n_len _ _ _ Hs). exact Hb.
Qed.
Lemma at_resets l : forall s, well_formed E Electra s -> (forall p, In p l -> nthN (map v_activation_epoch (validators s)) (snd p) = Some FAR_FUTURE_EPOCH) ->
  well_formed E Electra (snd (sfor l (fun p : N * N => queue_entire_balance_and_reset_validator (snd p)) s)).
Proof.
  induction l as [|p l IH]; intros s Hs Hl; [exact Hs|]. rewrite sfor_cons.
  assert (Hp : nthN (map v_activation_epoch (validators s)) (snd p) = Some FAR_FUTURE_EPOCH) by (apply Hl; left; reflexivity).
  rewrite nthN_map in Hp. destruct (nthN (validators s) (snd p)) as [v|] eqn:Hv; [|discriminate]. injection Hp as Hp.
  assert (Hk : regkeep s (snd (queue_entire_balance_and_reset_validator (snd p) s))) by (apply regkeep_reset with (v := v); assumption).
  apply at_bind.
  - apply at_reset; [exact Hs|]. intros w Hw. congruence.
  - intros u t Ht Hit. apply IH; [exact Hit|]. intros q Hq. rewrite Ht in Hk. destruct Hk as (Ha & _). cbn [snd] in Ha. rewrite Ha. apply Hl. right; exact Hq.
Qed.
Lemma hd_finish : hold E Electra (electra_finish E).
Proof.
  unfold electra_finish. do 4 (apply hd_bind; [solve [hh]|intros ?]). apply hd_rd_bind. intros s pre Hs Hpre. apply Ok_inj in Hpre. subst pre.
  apply at_bind.
  - apply at_resets; [exact Hs|]. intros p Hp. eapply Permutation_in in Hp; [|symmetry; apply key_sort_perm]. apply pre_activation_far in Hp as [_ Hp].
    rewrite N.sub_0_r in Hp. exact Hp.
  - intros u t _ Ht. clear u. revert t Ht. match goal with |- forall s, _ -> well_formed _ _ (snd (?m s)) => change (hold E Electra m) end.
    apply hd_bind; [apply hd_rd|]. intros c. apply hd_for. intros i. apply hd_excess.
Qed.
Lemma up_electra s s' : upgrade_to_electra E s = Ok s' -> well_formed E Deneb s -> well_formed E Electra s'.
Proof.
  intros H Hs. unfold upgrade_to_electra in H. rinv H.
  match goal with H : (let (_, _) := electra_finish E ?b in _) = _ |- _ => pose proof (hd_finish b) as Hf; destruct (electra_finish E b) as [r p] end.
  rinv H. cbn [snd] in Hf. subst. apply Hf. clear Hf.
  match goal with H : upgrade_earliest_exit E _ _ = Ok _ |- _ => rename H into Hee end.
  match goal with H : compute_activation_exit_epoch E _ = Ok _ |- _ => rename H into Hec end.
  destruct Hs as [L [R1 R2 R3 R4] Z S P Q V]. constructor; cbn.
  - exact L.
  - constructor; cbn; try (intros ? []). exact R4.
  - exact Z.
  - intros _. exact (S ltac:(discriminate)).
  - exact P.
  - intros Hc. unfold queue_epochs. cbn. apply act_exit in Hec as [_ Hec]; [|assumption..]. split; [|exact Hec].
    unfold upgrade_earliest_exit in Hee. apply add_checked in Hee as [_ Hee]; [|assumption..]. rewrite far_is. lia.
  - exact V.
Qed.

(** ** Histories *)
Lemma call_inv p p' : call E p p' -> well_formed E (fst p) (snd p) -> well_formed E (fst p') (snd p').
Proof.
  intros H Hs. destruct H; cbn [fst snd] in *.
  - pose proof (hd_transition E f f delay_pos validate sb s Hs) as P. rewrite H in P. exact P.
  - pose proof (hd_block_in_slot E f f delay_pos validate sb s Hs) as P. rewrite H in P. exact P.
  - pose proof (hd_slots E f f delay_pos target s Hs) as P. rewrite H in P. exact P.
  - pose proof (hd_block E f f delay_pos b s Hs) as P. rewrite H in P. exact P.
  - pose proof (hd_epoch E f f delay_pos s Hs) as P. rewrite H in P. exact P.
  - eapply up_altair; eauto.
  - eapply up_bellatrix; eauto.
  - eapply up_capella; eauto.
  - eapply up_deneb; eauto.
  - eapply up_electra; eauto.
Qed.
Lemma history_inv p p' : history E p p' -> well_formed E (fst p) (snd p) -> well_formed E (fst p') (snd p').
Proof. induction 1 as [a b H|a|a b c H1 IH1 H2 IH2]; [apply call_inv; exact H|auto|auto]. Qed.

(** ** Genesis *)
Lemma hd_genesis_deposits f l : forall leaves, hold E Phase0 (genesis_deposits E f l leaves).
Proof.
  induction l as [|d l IH]; intros leaves; cbn [genesis_deposits]; [apply hd_ret|]. cbn zeta.
  apply hd_bind; [apply hd_lift|]. intros r. apply hd_bind; [apply hd_md; intros s Hs; irr s Hs|]. intros _.
  apply hd_bind; [apply hd_deposit; exact delay_pos|]. intros _. apply IH.
Qed.
Lemma hd_drain : hold E Phase0 (genesis_drain_pending E).
Proof.
  unfold genesis_drain_pending. apply hd_bind; [apply hd_rd|]. intros l. apply hd_bind.
  - intros s Hs. cbn [md snd]. apply inv_pbd; [|exact Hs]. intros ? [].
  - intros _. apply hd_for. intros d. apply hd_increase; exact delay_pos.
Qed.
Lemma hd_activation i : hold E Phase0 (genesis_activation_step E i).
Proof.
  unfold genesis_activation_step. apply hd_bind; [apply hd_rd|]. intros b. apply hd_bind; [apply hd_lift|]. intros e. cbn zeta.
  apply hd_bind; [apply hd_mod; intros v; split; [reflexivity|intros [L1 L2 L3 L4 L5 L6]; constructor; gs; assumption]|]. intros _.
  apply hd_when. apply hd_mod. intros v. split; [reflexivity|]. unfold GENESIS_EPOCH. intros [L1 L2 L3 L4 L5 L6]. constructor; gs; try assumption; lia.
Qed.
Lemma genesis_inv f bh ts ds hd s : initialize_beacon_state_from_eth1 E f bh ts ds hd = Ok s -> well_formed E f s.
Proof.
  intros H. unfold initialize_beacon_state_from_eth1 in H. rinv H.
  match goal with H : (let (_, _) := genesis_steps E f ds ?b in _) = _ |- _ => set (base := b) in H; destruct (genesis_steps E f ds base) as [r p] eqn:Hg end.
  rinv H. subst.
  assert (Hb : well_formed E Phase0 base).
  { unfold base, genesis_base. constructor; cbn; try reflexivity.
    - constructor; cbn; try (intros ? []). intros Hn; contradiction.
    - intros Hn; contradiction.
    - intros _. unfold checkpoints_past, epoch_of. cbn. repeat split; apply N.le_0_l.
    - intros _. unfold queue_epochs. cbn. rewrite far_is. unfold U64. lia.
    - intros _ v []. }
  clearbody base. unfold genesis_steps in Hg.
  sinv Hg.
  assert (Hk : forall {A} (m : St BeaconState A) a s t, hold E Phase0 m -> m s = (Ok a, t) -> well_formed E Phase0 s -> well_formed E Phase0 t)
    by (intros A m a u t Hm Ht Hu; pose proof (Hm u Hu) as K; rewrite Ht in K; exact K).
  apply (Hk _ _ _ _ _ (hd_genesis_deposits f ds [])) in Hg0; [|exact Hb].
  apply Hk in Hg1; [|apply hd_when; exact hd_drain|exact Hg0].
  apply Hk in Hg3; [|apply hd_for; exact hd_activation|exact Hg1].
  set (u := set_genesis_validators_root x9 x8) in *.
  assert (Hu : well_formed E Phase0 u) by (unfold u; irr x8 Hg3). clearbody u.
  assert (Hf : f = Phase0 \/ fork_le Altair f = true) by (destruct f; auto).
  destruct Hf as [->|Hf]; [change (fork_le Altair Phase0) with false in Hg; unfold swhen in Hg; sinv Hg; exact Hu|].
  rewrite Hf in Hg. unfold swhen in Hg. sinv Hg. subst.
  match goal with H : get_next_sync_committee E u = Ok _ |- _ => apply next_committee_valid in H; [|exact delay_pos]; rename H into Hc end.
  destruct Hu as [L [R1 R2 R3 R4] Z S P Q V]. constructor; gs; try assumption.
  - constructor; gs; assumption.
  - intros _. split; exact Hc.
Qed.
End WithEnv.
