(** * Sizes and effective balances in reachable states (proof file) *)
From Verif Require Import Base BaseLemmas Types Ctx Env Helpers HelpersAltair HelpersElectra Block Epoch Transition Upgrade Genesis Executor StLemmas
  SpecCommon Frame FrameProofs SpecReach SpecHistory SpecRegistry HelperProofs HelperProofs2 HistoryProofs.
From Coq Require Import Relations Permutation.

Section WithEnv.
Variable E : Env.

(** ** Sizes *)
Lemma evo_sized f s s' : evo_all E f s s' -> vectors_sized E s -> vectors_sized E s'.
Proof.
  intros H (A1 & A2 & A3 & A4 & A5). destruct (frame_shape E f s s' H) as (S1 & S2 & S3 & S4 & S5 & _).
  unfold vectors_sized. rewrite S1, S2, S3, S4. auto 6.
Qed.
Definition sz {A} (m : St BeaconState A) : Prop := pres (fun s t => vectors_sized E s -> vectors_sized E t) m.
Lemma sz_refl s : vectors_sized E s -> vectors_sized E s. Proof. auto. Qed.
Lemma sz_trans (a b c : BeaconState) : (vectors_sized E a -> vectors_sized E b) -> (vectors_sized E b -> vectors_sized E c) -> vectors_sized E a -> vectors_sized E c. Proof. auto. Qed.
Lemma sz_ret {A} (a : A) : sz (sret a). Proof. apply pres_ret. exact sz_refl. Qed.
Lemma sz_rd {A} (g : BeaconState -> res A) : sz (rd g). Proof. apply pres_rd. exact sz_refl. Qed.
Lemma sz_lift {A} (r : res A) : sz (lift r). Proof. apply pres_lift. exact sz_refl. Qed.
Lemma sz_md g : (forall s, vectors_sized E s -> vectors_sized E (g s)) -> sz (md g). Proof. intros H s. apply H. Qed.
Lemma sz_bind {A B} (m : St BeaconState A) (k : A -> St BeaconState B) : sz m -> (forall a, sz (k a)) -> sz (sbind m k).
Proof. apply pres_bind. exact sz_trans. Qed.
Lemma sz_when c m : sz m -> sz (swhen c m). Proof. apply pres_when. exact sz_refl. Qed.
Lemma sz_for {A} (l : list A) body : (forall x, sz (body x)) -> sz (sfor l body). Proof. apply pres_for; [exact sz_refl|exact sz_trans]. Qed.
Lemma sz_mod i g : sz (mod_validator i g).
Proof. unfold mod_validator. apply sz_bind; [apply sz_rd|]. intros v. apply sz_md. intros s H. exact H. Qed.
Lemma sz_evo {A} f l (m : St BeaconState A) : evp E f l m -> sz m.
Proof. intros H s. apply (evo_sized f). eapply evo_all_of. apply H. Qed.
Ltac szs := repeat match goal with
  | |- forall _, _ => intro
  | |- sz (sbind _ _) => apply sz_bind | |- sz (rd _) => apply sz_rd | |- sz (lift _) => apply sz_lift | |- sz (sret _) => apply sz_ret
  | |- sz (swhen _ _) => apply sz_when | |- sz (sfor _ _) => apply sz_for | |- sz (mod_validator _ _) => apply sz_mod
  | |- sz (match ?x with _ => _ end) => destruct x
  | |- sz (md _) => apply sz_md; intros ? H; exact H end.
Lemma sz_finish : sz (electra_finish E).
Proof. unfold electra_finish, queue_entire_balance_and_reset_validator, queue_excess_active_balance. szs. Qed.
Lemma sz_genesis f ds : forall l, sz (genesis_deposits E f ds l).
Proof.
  induction ds as [|d ds IH]; intros l; cbn [genesis_deposits]; [apply sz_ret|]. cbn zeta. apply sz_bind; [apply sz_lift|]. intros r.
  apply sz_bind; [szs|]. intros _. apply sz_bind; [apply (sz_evo f LBlock), evp_deposit|]. intros _. apply IH.
Qed.
Lemma sz_steps f ds : sz (genesis_steps E f ds).
Proof.
  unfold genesis_steps. apply sz_bind; [apply sz_genesis|]. intros _. unfold genesis_drain_pending, genesis_activation_step.
  apply sz_bind; [apply sz_when; apply sz_bind; [szs|]; intros l; apply sz_bind; [szs|]; intros _; apply sz_for; intros d; apply (sz_evo f LBlock), evp_increase|].
  intros _. szs.
Qed.
Lemma call_sized p p' : call E p p' -> vectors_sized E (snd p) -> vectors_sized E (snd p').
Proof.
  intros H Hs. destruct H; cbn [snd] in *.
  - pose proof (evo_sized f _ _ (evpa_transition E f validate sb s) Hs) as P. rewrite H in P. exact P.
  - pose proof (evo_sized f _ _ (evpa_block_in_slot E f validate sb s) Hs) as P. rewrite H in P. exact P.
  - pose proof (evo_sized f _ _ (evpa_slots E f target s) Hs) as P. rewrite H in P. exact P.
  - pose proof (evo_sized f _ _ (evpa_of E f LBlock _ (evp_block E f b) s) Hs) as P. rewrite H in P. exact P.
  - pose proof (evo_sized f _ _ (evpa_of E f (LEpoch true) _ (evp_epoch E f) s) Hs) as P. rewrite H in P. exact P.
  - unfold upgrade_to_altair, translate_participation in H. rinv H. subst. exact Hs.
  - unfold upgrade_to_bellatrix in H. rinv H. subst. exact Hs.
  - unfold upgrade_to_capella in H. rinv H. subst. exact Hs.
  - unfold upgrade_to_deneb in H. rinv H. subst. exact Hs.
  - unfold upgrade_to_electra in H. rinv H.
    match goal with H : (let (_, _) := electra_finish E ?b in _) = _ |- _ => pose proof (sz_finish b) as Hf; destruct (electra_finish E b) as [r p] end.
    rinv H. cbn [snd] in Hf. subst. apply Hf. exact Hs.
Qed.
Lemma history_sized p p' : history E p p' -> vectors_sized E (snd p) -> vectors_sized E (snd p').
Proof. induction 1 as [a b H|a|a b c H1 IH1 H2 IH2]; [apply call_sized; exact H|auto|auto]. Qed.
Lemma genesis_sized f bh ts ds h s : initialize_beacon_state_from_eth1 E f bh ts ds h = Ok s -> vectors_sized E s.
Proof.
  intros H. unfold initialize_beacon_state_from_eth1 in H. rinv H.
  match goal with H : (let (_, _) := genesis_steps E f ds ?b in _) = _ |- _ => pose proof (sz_steps f ds b) as Hf; destruct (genesis_steps E f ds b) as [r p] end.
  rinv H. cbn [snd] in Hf. subst. apply Hf. unfold genesis_base, vectors_sized. cbn -[repeatN]. unfold repeatN, lenN. rewrite !repeat_length, !N2Nat.id. repeat split.
Qed.

(** ** Effective balances *)
Hypothesis Hc : caps_sane E.
Definition ef (f : Fork) {A} (m : St BeaconState A) : Prop := pres (fun s t => effective_capped E f s -> effective_capped E f t) m.
Lemma ok_capped f s : Forall (effective_ok E f) (validators s) <-> effective_capped E f s.
Proof.
  destruct Hc as (_ & _ & _ & _ & _ & Hle). rewrite Forall_forall. unfold effective_capped, effective_ok, balance_cap.
  split; intros H v Hv; destruct (H v Hv) as [H1 H2]; (split; [exact H1|]); revert H2; destruct f; destruct (Fork_eq_dec _ _); try discriminate; try contradiction; lia.
Qed.
Lemma evo_capped f s s' : evo_all E f s s' -> effective_capped E f s -> effective_capped E f s'.
Proof.
  intros H. destruct Hc as (C1 & C2 & C3 & C4 & C5 & C6). rewrite <- !ok_capped.
  exact (evo_all_inv E f (fun s => Forall (effective_ok E f) (validators s)) (fun l a b => effective_prim E f C1 C2 C3 C4 C5 l a b) _ _ H).
Qed.
Lemma ef_refl f s : effective_capped E f s -> effective_capped E f s. Proof. auto. Qed.
Lemma ef_trans f (a b c : BeaconState) : (effective_capped E f a -> effective_capped E f b) -> (effective_capped E f b -> effective_capped E f c) -> effective_capped E f a -> effective_capped E f c. Proof. auto. Qed.
Lemma ef_ret f {A} (a : A) : ef f (sret a). Proof. apply pres_ret. exact (ef_refl f). Qed.
Lemma ef_rd f {A} (g : BeaconState -> res A) : ef f (rd g). Proof. apply pres_rd. exact (ef_refl f). Qed.
Lemma ef_lift f {A} (r : res A) : ef f (lift r). Proof. apply pres_lift. exact (ef_refl f). Qed.
Lemma ef_md f g : (forall s, effective_capped E f s -> effective_capped E f (g s)) -> ef f (md g). Proof. intros H s. apply H. Qed.
Lemma ef_bind f {A B} (m : St BeaconState A) (k : A -> St BeaconState B) : ef f m -> (forall a, ef f (k a)) -> ef f (sbind m k).
Proof. apply pres_bind. exact (ef_trans f). Qed.
Lemma ef_when f c m : ef f m -> ef f (swhen c m). Proof. apply pres_when. exact (ef_refl f). Qed.
Lemma ef_for f {A} (l : list A) body : (forall x, ef f (body x)) -> ef f (sfor l body). Proof. apply pres_for; [exact (ef_refl f)|exact (ef_trans f)]. Qed.
Lemma ef_mod f i g : (forall v, v_effective_balance v mod EFFECTIVE_BALANCE_INCREMENT E = 0 /\ v_effective_balance v <= balance_cap E f ->
    v_effective_balance (g v) mod EFFECTIVE_BALANCE_INCREMENT E = 0 /\ v_effective_balance (g v) <= balance_cap E f) -> ef f (mod_validator i g).
Proof.
  intros Hg s Hs. destruct (nthN (validators s) i) as [v|] eqn:Hv.
  - rewrite (mod_validator_run s i g v Hv). cbn [snd]. intros w Hw. gsh Hw. apply In_updN in Hw as [->|Hw]; [apply Hg, Hs; eapply nthN_In; exact Hv|apply Hs; exact Hw].
  - unfold mod_validator, sbind, rd, idx. rewrite Hv. exact Hs.
Qed.
Lemma ef_evo f {A} l (m : St BeaconState A) : evp E f l m -> ef f m.
Proof. intros H s. apply (evo_capped f). eapply evo_all_of. apply H. Qed.
Ltac efs := repeat match goal with
  | |- forall _, _ => intro
  | |- ef _ (sbind _ _) => apply ef_bind | |- ef _ (rd _) => apply ef_rd | |- ef _ (lift _) => apply ef_lift | |- ef _ (sret _) => apply ef_ret
  | |- ef _ (swhen _ _) => apply ef_when | |- ef _ (sfor _ _) => apply ef_for
  | |- ef _ (match ?x with _ => _ end) => destruct x
  | |- ef _ (md _) => apply ef_md; intros ? H; exact H end.
Lemma ef_finish : ef Electra (electra_finish E).
Proof.
  unfold electra_finish, queue_entire_balance_and_reset_validator, queue_excess_active_balance. efs.
  apply ef_mod. intros v _. gs. destruct Hc as (C1 & _). split; [apply N.mod_0_l; lia|apply N.le_0_l].
Qed.
Lemma ef_genesis f ds : forall l, ef f (genesis_deposits E f ds l).
Proof.
  induction ds as [|d ds IH]; intros l; cbn [genesis_deposits]; [apply ef_ret|]. cbn zeta. apply ef_bind; [apply ef_lift|]. intros r.
  apply ef_bind; [efs|]. intros _. apply ef_bind; [apply (ef_evo f LBlock), evp_deposit|]. intros _. apply IH.
Qed.
Lemma ef_steps f ds : ef f (genesis_steps E f ds).
Proof.
  unfold genesis_steps. apply ef_bind; [apply ef_genesis|]. intros _. unfold genesis_drain_pending, genesis_activation_step.
  apply ef_bind; [apply ef_when; apply ef_bind; [efs|]; intros l; apply ef_bind; [efs|]; intros _; apply ef_for; intros d; apply (ef_evo f LBlock), evp_increase|].
  intros _. apply ef_bind; [efs|]. intros n. apply ef_bind.
  - apply ef_for. intros i. apply ef_bind; [efs|]. intros b s.
    destruct Hc as (C1 & C2 & C3 & C4 & C5 & C6).
    unfold sbind at 1, lift at 1. destruct (let! m := umod b (EFFECTIVE_BALANCE_INCREMENT E) in sub E b m) as [e| | |] eqn:He; try (cbn [snd]; auto; fail).
    cbn zeta. assert (Hm : N.min e (MAX_EFFECTIVE_BALANCE E) mod EFFECTIVE_BALANCE_INCREMENT E = 0).
    { rinv He. match goal with H : umod _ _ = Ok _ |- _ => unfold umod in H; destruct (_ =? 0); [discriminate|]; apply Ok_inj in H; subst end.
      assert (Hle : b mod EFFECTIVE_BALANCE_INCREMENT E <= b) by (apply N.mod_le; lia).
      unfold sub, usub in He. destruct (N.leb_spec (b mod EFFECTIVE_BALANCE_INCREMENT E) b); [|lia]. apply Ok_inj in He. subst e. apply round_mult_gen; assumption. }
    revert s. match goal with |- forall s, _ -> effective_capped _ _ (snd (?m s)) => change (ef f m) end.
    apply ef_bind; [apply ef_mod|intros _; apply ef_when, ef_mod; intros v H; exact H].
    intros v _. gs. split; [exact Hm|]. eapply N.le_trans; [apply N.le_min_r|]. unfold balance_cap. destruct f; lia.
  - intros _. efs.
Qed.
Lemma call_capped p p' : call E p p' -> effective_capped E (fst p) (snd p) -> effective_capped E (fst p') (snd p').
Proof.
  intros H Hs. destruct H; cbn [fst snd] in *.
  - pose proof (evo_capped f _ _ (evpa_transition E f validate sb s) Hs) as P. rewrite H in P. exact P.
  - pose proof (evo_capped f _ _ (evpa_block_in_slot E f validate sb s) Hs) as P. rewrite H in P. exact P.
  - pose proof (evo_capped f _ _ (evpa_slots E f target s) Hs) as P. rewrite H in P. exact P.
  - pose proof (evo_capped f _ _ (evpa_of E f LBlock _ (evp_block E f b) s) Hs) as P. rewrite H in P. exact P.
  - pose proof (evo_capped f _ _ (evpa_of E f (LEpoch true) _ (evp_epoch E f) s) Hs) as P. rewrite H in P. exact P.
  - unfold upgrade_to_altair, translate_participation in H. rinv H. subst. exact Hs.
  - unfold upgrade_to_bellatrix in H. rinv H. subst. exact Hs.
  - unfold upgrade_to_capella in H. rinv H. subst. exact Hs.
  - unfold upgrade_to_deneb in H. rinv H. subst. exact Hs.
  - unfold upgrade_to_electra in H. rinv H.
    match goal with H : (let (_, _) := electra_finish E ?b in _) = _ |- _ => pose proof (ef_finish b) as Hf; destruct (electra_finish E b) as [r p] end.
    rinv H. cbn [snd] in Hf. subst. apply Hf. intros v Hv. destruct (Hs v Hv) as [Hd Hl]. split; [exact Hd|].
    eapply N.le_trans; [exact Hl|]. apply Hc.
Qed.
Lemma history_capped p p' : history E p p' -> effective_capped E (fst p) (snd p) -> effective_capped E (fst p') (snd p').
Proof. induction 1 as [a b H|a|a b c H1 IH1 H2 IH2]; [apply call_capped; exact H|auto|auto]. Qed.
Lemma genesis_capped f bh ts ds h s : initialize_beacon_state_from_eth1 E f bh ts ds h = Ok s -> effective_capped E f s.
Proof.
  intros H. unfold initialize_beacon_state_from_eth1 in H. rinv H.
  match goal with H : (let (_, _) := genesis_steps E f ds ?b in _) = _ |- _ => pose proof (ef_steps f ds b) as Hf; destruct (genesis_steps E f ds b) as [r p] end.
  rinv H. cbn [snd] in Hf. subst. apply Hf. intros v [].
Qed.
End WithEnv.
