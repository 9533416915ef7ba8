(** * How validators enter the registry and become active (proof file; no model definitions) *)
From Verif Require Import Base BaseLemmas Types Ctx Env Helpers HelpersAltair HelpersElectra Block Epoch Transition Upgrade StLemmas
  SpecCommon SpecHelpers SpecElectra SpecOps SpecBlock SpecEpoch SpecFlow SpecAtt SpecQueues SpecFinality SpecSafety SpecEvidence SpecAuthority SpecEntry
  Frame HelperProofs HelperProofs2 OpsProofs SlashProofs BlockProofs FlowProofs RegistryProofs PropsEvidence AuthorityProofs.

(** ** Blocks *)
Section Blk.
Variables (E : Env) (f : Fork) (s0 : BeaconState) (b : BeaconBlock).
Notation body := (bk_body b).

Record jlink (i : N) (v v' : Validator) : Prop := mkJlink {
  jl_pk : v_public_key v' = v_public_key v; jl_act : v_activation_epoch v' = v_activation_epoch v;
  jl_elig : v_activation_eligibility_epoch v' = v_activation_eligibility_epoch v }.
Definition jfresh (v : Validator) : Prop :=
  signed_to_join E f b (v_public_key v) /\ v_activation_epoch v = FAR_FUTURE_EPOCH /\ v_activation_eligibility_epoch v = FAR_FUTURE_EPOCH.
Notation hold := (holdI s0 jlink jfresh).
Definition mild (g : Validator -> Validator) : Prop := forall v, v_public_key (g v) = v_public_key v /\ v_activation_epoch (g v) = v_activation_epoch v
  /\ v_activation_eligibility_epoch (g v) = v_activation_eligibility_epoch v.
Lemma j_mod i g : mild g -> hold (mod_validator i g).
Proof.
  intros H. apply hi_mod.
  - intros v v' _ [L1 L2 L3]. destruct (H v') as (A1 & A2 & A3). constructor; congruence.
  - intros _ v' (L1 & L2 & L3). destruct (H v') as (A1 & A2 & A3). unfold jfresh. rewrite A1, A2, A3. auto.
Qed.
Ltac jt1 :=
  match goal with
  | |- forall _, _ => intro
  | |- hold (sbind _ _) => apply hi_bind
  | |- hold (rd _) => apply hi_quiet; qt
  | |- hold (lift _) => apply hi_quiet; qt
  | |- hold (sret _) => apply hi_quiet; qt
  | |- hold (swhen _ _) => apply hi_when
  | |- hold (sfor _ _) => apply hi_for
  | |- hold (sfold _ _ _) => apply hi_fold
  | |- hold (increase_balance _ _ _) => apply hi_quiet; qt
  | |- hold (decrease_balance _ _ _) => apply hi_quiet; qt
  | |- hold (mod_validator _ _) => apply j_mod; intro; gs; auto
  | |- hold (let _ := _ in _) => cbv zeta
  | |- hold (match ?x with _ => _ end) => destruct x
  | |- hold (md _) => apply hi_quiet; apply pres_md; intro; first [constructor; gs; reflexivity | apply quiet_refl]
  end.
Ltac jt := repeat jt1.
Lemma j_exit g i : hold (initiate_exit E g i).
Proof. destruct g; unfold initiate_exit, initiate_validator_exit, initiate_validator_exit_electra, compute_exit_epoch_and_update_churn; jt. Qed.
Lemma j_slash g i : hold (slash_validator E g i None).
Proof. unfold slash_validator. jt. apply j_exit. Qed.
Lemma j_switch i : hold (switch_to_compounding_validator E i).
Proof. unfold switch_to_compounding_validator, queue_excess_active_balance. jt. Qed.
Lemma j_add g pk wc amount : signed_to_join E f b pk -> hold (add_validator_to_registry E g pk wc amount).
Proof.
  intros H.
  assert (A : hold (let* v := lift (get_validator_from_deposit E pk wc amount) in
    md (fun s => set_balances (balances s ++ [amount]) (set_validators (validators s ++ [v]) s)) ;;
    swhen (fork_le Altair g)
      (md (fun s => set_inactivity_scores (inactivity_scores s ++ [0])
             (set_current_epoch_participation (current_epoch_participation s ++ [0])
             (set_previous_epoch_participation (previous_epoch_participation s ++ [0]) s)))))).
  { apply hi_lift. intros v Hv. apply hi_bind; [|intros _; apply hi_quiet; qt]. apply (hi_append _ _ _ _ v); [intros u; gs; auto|].
    unfold get_validator_from_deposit in Hv. rinv Hv. subst v. split; [exact H|split; reflexivity]. }
  destruct g; cbn [add_validator_to_registry]; try exact A. refine (hi_append _ _ _ _ (get_validator_from_deposit_electra pk wc) _ _).
  - intros u. split; [reflexivity|split; [reflexivity|split; reflexivity]].
  - split; [exact H|split; reflexivity].
Qed.
Lemma j_apply_electra pk wc amount sg : f = Electra ->
  ((exists d, In d (bb_deposits body) /\ dd_public_key (dep_data d) = pk /\ dd_withdrawal_credentials (dep_data d) = wc /\ dd_amount (dep_data d) = amount /\ dd_signature (dep_data d) = sg)
   \/ (exists r, In r (ep_deposit_receipts (bb_execution_payload body)) /\ dr_public_key r = pk /\ dr_withdrawal_credentials r = wc /\ dr_amount r = amount /\ dr_signature r = sg)) ->
  hold (apply_deposit_electra E pk wc amount sg).
Proof.
  intros Hf Hd. unfold apply_deposit_electra. apply hi_bind; [jt|]. intros [i|]; [jt; apply j_switch|]. apply hi_lift. intros [] Hs. apply deposit_sig_ok in Hs. apply j_add.
  exists wc, amount, sg. split; [exact Hs|]. destruct Hd as [Hd|Hd]; [left; exact Hd|right; split; [exact Hf|exact Hd]].
Qed.
Lemma j_apply0 g d : In d (bb_deposits body) -> hold (apply_deposit_phase0 E g (dd_public_key (dep_data d)) (dd_withdrawal_credentials (dep_data d)) (dd_amount (dep_data d)) (dd_signature (dep_data d))).
Proof.
  intros Hd. unfold apply_deposit_phase0. apply hi_bind; [jt|]. intros [i|]; [jt|]. apply hi_lift. intros dom Hdom. apply hi_lift. intros bad Hb. destruct bad; [jt|]. apply j_add.
  eexists _, _, _. split; [|left; exists d; split; [exact Hd|auto]]. apply deposit_sig_ok. unfold is_valid_deposit_signature. rewrite Hdom. cbn [rbind].
  destruct (verify_signed_data _ _ _ _ _) as [[]| | |]; [reflexivity|discriminate Hb..].
Qed.
Lemma j_deposit d : In d (bb_deposits body) -> hold (process_deposit E f d).
Proof.
  intros Hd. unfold process_deposit. apply hi_bind; [jt|]. intros _. apply hi_bind; [jt|]. intros i. apply hi_bind; [jt|]. intros _. cbv zeta.
  unfold apply_deposit. destruct (fork_is_electra f) as [He|He].
  - rewrite He. apply j_apply_electra; [exact He|]. left. exists d. auto.
  - pose proof (j_apply0 f d Hd) as A. destruct f; try apply A. congruence.
Qed.
Lemma j_operations : hold (process_operations E f body).
Proof.
  unfold process_operations. apply hi_bind; [jt|]. intros _.
  apply hi_bind; [unfold process_proposer_slashing; jt; apply j_slash|]. intros _.
  apply hi_bind; [unfold process_attester_slashing; jt; apply j_slash|]. intros _.
  apply hi_bind; [apply hi_for; intros a _; apply hi_quiet; apply quiet_attestation|]. intros _.
  apply hi_bind; [apply hi_for; intros d Hd; apply j_deposit; exact Hd|]. intros _.
  apply hi_bind; [unfold process_voluntary_exit; jt; apply j_exit|]. intros _.
  apply hi_bind; [unfold process_bls_to_execution_change; jt|]. intros _.
  apply hi_when. intros Hf. assert (He : f = Electra) by (clear - Hf; destruct f; first [reflexivity|discriminate Hf]).
  apply hi_bind; [unfold process_execution_layer_withdrawal_request, compute_exit_epoch_and_update_churn; jt; apply (j_exit Electra)|]. intros _.
  apply hi_bind; [|intros _; unfold process_consolidation, compute_consolidation_epoch_and_update_churn; jt].
  apply hi_for. intros r Hr. unfold process_deposit_receipt. apply hi_bind; [apply hi_quiet; apply pres_md; intros t; destruct (_ =? _); [constructor; gs; reflexivity|apply quiet_refl]|].
  intros _. apply j_apply_electra; [exact He|]. right. exists r. auto.
Qed.
Lemma j_block : inv s0 jlink jfresh (snd (process_block E f b s0)).
Proof.
  enough (H : hold (process_block E f b)) by (apply H; apply inv_start; intros i v _; constructor; reflexivity).
    unfold process_block. cbv zeta. apply hi_bind; [apply hi_quiet; unfold process_block_header; qt|]. intros _.
  apply hi_bind; [apply hi_quiet; destruct f; qt; unfold process_execution_payload, process_withdrawals; qt|]. intros _.
  apply hi_bind; [apply hi_quiet; unfold process_randao; qt|]. intros _.
  apply hi_bind; [apply hi_quiet; unfold process_eth1_data; qt|]. intros _.
  apply hi_bind; [apply j_operations|]. intros _. apply hi_quiet. unfold process_sync_aggregate, sync_step. qt.
Qed.
End Blk.

(** ** Epochs *)
Definition kf (s t : BeaconState) : Prop := finalized_checkpoint t = finalized_checkpoint s.
Lemma kf_refl s : kf s s. Proof. reflexivity. Qed.
Lemma kf_trans a b c : kf a b -> kf b c -> kf a c. Proof. unfold kf. congruence. Qed.
Lemma kf_mod i g : pres kf (mod_validator i g).
Proof. intros s. unfold mod_validator, sbind, rd, md. destruct (idx (validators s) i); cbn [snd]; try apply kf_refl. unfold kf. gs. reflexivity. Qed.
Lemma kf_fold {A B} (l : list A) (body : B -> A -> St BeaconState B) b : (forall b x, pres kf (body b x)) -> pres kf (sfold body l b).
Proof. intros. apply pres_fold; auto using kf_refl. exact kf_trans. Qed.
Lemma kf_increase (E : Env) i d : pres kf (increase_balance E i d).
Proof. unfold increase_balance. apply pres_bind; [exact kf_trans|apply pres_rd; exact kf_refl|]. intros a. apply pres_md. intros s. unfold kf. gs. reflexivity. Qed.
Lemma kf_decrease (E : Env) i d : pres kf (decrease_balance E i d).
Proof. unfold decrease_balance. apply pres_bind; [exact kf_trans|apply pres_rd; exact kf_refl|]. intros a. apply pres_md. intros s. unfold kf. gs. reflexivity. Qed.
Ltac kf1 :=
  match goal with
  | |- forall _, _ => intro
  | |- pres kf (sbind _ _) => apply pres_bind; [exact kf_trans| |]
  | |- pres kf (rd _) => apply pres_rd; exact kf_refl
  | |- pres kf (lift _) => apply pres_lift; exact kf_refl
  | |- pres kf (sret _) => apply pres_ret; exact kf_refl
  | |- pres kf (swhen _ _) => apply pres_when; [exact kf_refl|]
  | |- pres kf (sfor _ _) => apply pres_for; [exact kf_refl|exact kf_trans|]
  | |- pres kf (sfold _ _ _) => apply kf_fold
  | |- pres kf (mod_validator _ _) => apply kf_mod
  | |- pres kf (increase_balance _ _ _) => apply kf_increase
  | |- pres kf (decrease_balance _ _ _) => apply kf_decrease
  | |- pres kf (match ?x with _ => _ end) => destruct x
  | |- pres kf (let _ := _ in _) => cbv zeta
  | |- pres kf (md _) => apply pres_md; intro; unfold kf; gs; reflexivity
  end.
Ltac kfs := repeat kf1.
Lemma kf_exit (E : Env) g i : pres kf (initiate_exit E g i).
Proof. destruct g; unfold initiate_exit, initiate_validator_exit, initiate_validator_exit_electra, compute_exit_epoch_and_update_churn; kfs. Qed.
Lemma kf_deposits (E : Env) l : forall a p c, pres kf (pending_deposits_loop E l a p c).
Proof. induction l as [|d l IH]; intros a p c; cbn [pending_deposits_loop]; kfs. apply IH. Qed.
Lemma kf_consolidations (E : Env) l : forall n, pres kf (pending_consolidations_loop E l n).
Proof. induction l as [|c l IH]; intros n; cbn [pending_consolidations_loop]; unfold switch_to_compounding_validator, queue_excess_active_balance; kfs; apply IH. Qed.
Lemma kf_tail (E : Env) f : pres kf (epoch_tail E f).
Proof.
  unfold epoch_tail.
  apply pres_bind; [exact kf_trans|unfold process_inactivity_updates, inactivity_update_step; kfs|]. intros _.
  apply pres_bind; [exact kf_trans|unfold process_rewards_and_penalties, apply_deltas; kfs|]. intros _.
  apply pres_bind; [exact kf_trans|unfold process_registry_updates, registry_step; kfs; apply kf_exit|]. intros _.
  apply pres_bind; [exact kf_trans|unfold process_slashings, slashings_step; kfs|]. intros _.
  apply pres_bind; [exact kf_trans|unfold process_eth1_data_reset; kfs|]. intros _.
  apply pres_bind; [exact kf_trans|unfold process_pending_balance_deposits, process_pending_consolidations; kfs; first [apply kf_deposits|apply kf_consolidations]|]. intros _.
  unfold process_effective_balance_updates, effective_balance_step, process_slashings_reset, process_randao_mixes_reset, process_historical_update, process_participation_record_updates,
    process_participation_flag_updates, process_sync_committee_updates. kfs.
Qed.

Section Ep.
Variables (E : Env) (f : Fork) (s0 : BeaconState) (fin : N).
Hypothesis Hc : ctx_sane E.
Hypothesis Hsm : slot_small s0.

Record rlink (i : N) (v v' : Validator) : Prop := mkRlink {
  rl_pk : v_public_key v' = v_public_key v; rl_eff : v_effective_balance v' = v_effective_balance v; rl_act : v_activation_epoch v' = v_activation_epoch v;
  rl_elig : v_activation_eligibility_epoch v' = v_activation_eligibility_epoch v
    \/ (v_activation_eligibility_epoch v = FAR_FUTURE_EPOCH /\ full_balance E f v /\ v_activation_eligibility_epoch v' = epoch_of E s0 + 1) }.
Record tlink (i : N) (v v' : Validator) : Prop := mkTlink {
  tl_pk : v_public_key v' = v_public_key v;
  tl_act : v_activation_epoch v' = v_activation_epoch v
    \/ (v_activation_epoch v = FAR_FUTURE_EPOCH /\ v_activation_eligibility_epoch v' <= fin /\ v_activation_epoch v' = epoch_of E s0 + 1 + MAX_SEED_LOOKAHEAD E);
  tl_elig : v_activation_eligibility_epoch v' = v_activation_eligibility_epoch v
    \/ (v_activation_eligibility_epoch v = FAR_FUTURE_EPOCH /\ full_balance E f v /\ v_activation_eligibility_epoch v' = epoch_of E s0 + 1) }.
Lemma rt u : inv s0 rlink nobody u -> inv s0 tlink nobody u.
Proof. apply inv_weaken; [|auto]. intros i v v' _ [L1 L2 L3 L4]. constructor; auto. Qed.
Lemma inv_upd (link : N -> Validator -> Validator -> Prop) u i w w' : inv s0 link nobody u -> nthN (validators u) i = Some w ->
  (forall v, nthN (validators s0) i = Some v -> link i v w -> link i v w') -> inv s0 link nobody (set_validators (updN (validators u) i w') u).
Proof.
  intros [I1 I2 I3 I4 I5] Hw H. pose proof (nthN_some _ _ _ Hw) as Hl. constructor; gs; try assumption.
  - intros j v Hj. destruct (I4 j v Hj) as (v' & A1 & A2). destruct (N.eq_dec j i) as [->|Hn]; [|exists v'; rewrite nthN_updN_ne by congruence; auto].
    exists w'. rewrite nthN_updN_eq by exact Hl. split; [reflexivity|]. rewrite Hw in A1. injection A1 as <-. auto.
  - intros j v' Hj Hi. destruct (N.eq_dec j i) as [->|Hn]; [|rewrite nthN_updN_ne in Hj by congruence; eapply I5; eauto]. destruct (I5 i w Hw Hi).
Qed.
Lemma r_exit g i : holdI s0 rlink nobody (initiate_exit E g i).
Proof.
  assert (M : forall h : N -> Validator -> Validator, (forall q v, v_public_key (h q v) = v_public_key v /\ v_effective_balance (h q v) = v_effective_balance v
      /\ v_activation_epoch (h q v) = v_activation_epoch v /\ v_activation_eligibility_epoch (h q v) = v_activation_eligibility_epoch v) -> forall q, holdI s0 rlink nobody (mod_validator i (h q))).
  { intros h H q. apply hi_mod; [|intros _ v' []]. intros v v' _ [L1 L2 L3 L4]. destruct (H q v') as (A1 & A2 & A3 & A4). constructor; [congruence..|]. rewrite A4. exact L4. }
  assert (M1 : forall q, holdI s0 rlink nobody (mod_validator i (set_v_exit_epoch q))) by (apply M; intros; gs; auto).
  assert (M2 : forall q, holdI s0 rlink nobody (mod_validator i (set_v_withdrawable_epoch q))) by (apply M; intros; gs; auto).
  assert (A : holdI s0 rlink nobody (initiate_validator_exit E i)).
  { unfold initiate_validator_exit. apply hi_bind; [apply hi_quiet; qt|]. intros v. destruct (negb _); [apply hi_quiet; qt|].
    apply hi_bind; [apply hi_quiet; qt|]. intros q. apply hi_bind; [apply M1|]. intros _. apply hi_bind; [apply hi_quiet; qt|]. intros w. apply M2. }
  destruct g; cbn [initiate_exit]; try exact A. unfold initiate_validator_exit_electra. apply hi_bind; [apply hi_quiet; qt|]. intros v. destruct (negb _); [apply hi_quiet; qt|].
  apply hi_bind; [apply hi_quiet; unfold compute_exit_epoch_and_update_churn; qt|]. intros q. apply hi_bind; [apply M1|]. intros _. apply hi_bind; [apply hi_quiet; qt|]. intros w. apply M2.
Qed.
Lemma queue_full v : queue_eligible E f v = true -> v_activation_eligibility_epoch v = FAR_FUTURE_EPOCH /\ full_balance E f v.
Proof.
  clear. unfold queue_eligible, full_balance, is_eligible_for_activation_queue_electra, is_eligible_for_activation_queue. destruct f; intros H; apply andb_true_iff in H as [H1 H2]; apply N.eqb_eq in H1;
    (split; [exact H1|]); first [apply N.leb_le; exact H2|apply N.eqb_eq; exact H2].
Qed.
Lemma small_epoch : epoch_of E s0 < 2 ^ 56.
Proof. unfold epoch_of. eapply N.le_lt_trans; [apply N.div_le_upper_bound with (q := slot s0)|exact Hsm]; destruct Hc as ((H & _) & _); [lia|]. nia. Qed.
Lemma r_step i : holdI s0 rlink nobody (registry_step E f (epoch_of E s0) i).
Proof.
  intros u I. unfold registry_step. unfold sbind at 1, rd at 1. destruct (idx (validators u) i) as [v1| | |] eqn:Hv; cbn [snd]; try exact I. apply idx_ok in Hv.
  assert (K : forall m : St BeaconState unit, inv s0 rlink nobody (snd (m u)) -> inv s0 rlink nobody (snd ((m ;; let* v' := rd (fun s => idx (validators s) i) in
    swhen (is_active_validator v' (epoch_of E s0) && (v_effective_balance v' <=? EJECTION_BALANCE E)) (initiate_exit E f i)) u))).
  { intros m Hm. unfold sbind at 1. destruct (m u) as [[a| | |] t]; cbn [snd] in *; try exact Hm. revert t Hm.
    match goal with |- forall t, _ -> inv _ _ _ (snd (?m t)) => change (holdI s0 rlink nobody m) end. apply hi_bind; [apply hi_quiet; qt|]. intros v'. apply hi_when. intros _. apply r_exit. }
  apply K. destruct (queue_eligible E f v1) eqn:Hq; cbn [swhen]; [|exact I]. apply queue_full in Hq as [Q1 Q2].
  pose proof small_epoch as He. unfold sbind at 1, lift. unfold add. rewrite uadd_ok by (rewrite U64_val; pows; lia).
  rewrite (mod_validator_run u i _ v1 Hv). cbn [snd]. apply (inv_upd rlink u i v1); [exact I|exact Hv|]. intros v _ [L1 L2 L3 L4]. constructor; gs; auto. right. split; [|split].
  - destruct L4 as [L4|(L4 & _)]; congruence.
  - revert Q2. unfold full_balance. rewrite L2. auto.
  - reflexivity.
Qed.
Definition PF (u : BeaconState) : Prop := inv s0 rlink nobody u /\ cp_epoch (finalized_checkpoint u) = fin.
Definition PT (u : BeaconState) : Prop := inv s0 tlink nobody u /\ cp_epoch (finalized_checkpoint u) = fin.
Lemma hpf {A} (m : St BeaconState A) : holdI s0 rlink nobody m -> pres kf m -> hp PF m.
Proof. intros H1 H2 u [U1 U2]. split; [apply H1; exact U1|]. specialize (H2 u). unfold kf in H2. rewrite H2. exact U2. Qed.
Lemma pf_pt u : PF u -> inv s0 tlink nobody u.
Proof. intros [H1 H2]. apply rt. exact H1. Qed.
Lemma act_epoch ae : compute_activation_exit_epoch E (epoch_of E s0) = Ok ae -> ae = epoch_of E s0 + 1 + MAX_SEED_LOOKAHEAD E.
Proof. intros H. rewrite (earliest_ok E Hc s0 Hsm) in H. apply Ok_inj in H. subst ae. reflexivity. Qed.
(** activations, before electra *)
Lemma r_queue lim u : PF u -> inv s0 tlink nobody (snd ((let* queue := rd (fun s => Ok (activation_queue s)) in let* ae := lift (compute_activation_exit_epoch E (epoch_of E s0)) in
  let* limit := rd lim in sfor (firstN limit queue) (fun i => mod_validator i (set_v_activation_epoch ae))) u)).
Proof.
  intros [I Hf]. unfold sbind at 1, rd at 1. cbn beta iota.
  set (tl2 := fun i v v' => tlink i v v' /\ (In i (activation_queue u) -> v_activation_epoch v = FAR_FUTURE_EPOCH /\ v_activation_eligibility_epoch v' <= fin)).
  assert (W : forall t, inv s0 tl2 nobody t -> inv s0 tlink nobody t) by (intros t; apply inv_weaken; [intros i v v' _ [H _]; exact H|auto]).
  assert (I2 : inv s0 tl2 nobody u).
  { destruct I as [I1 I2 I3 I4 I5]. constructor; try assumption. intros i v Hv. destruct (I4 i v Hv) as (v' & A1 & [L1 L2 L3 L4]). exists v'. split; [exact A1|]. split; [constructor; auto|].
    intros Hin. apply (proj2 (activation_queue_spec u)) in Hin as (w & W1 & W2). rewrite A1 in W1. injection W1 as <-.
    rewrite <- ready_eq in W2. apply andb_true_iff in W2 as [W2 W3]. apply N.leb_le in W2. apply N.eqb_eq in W3. rewrite Hf in W2. split; [congruence|exact W2]. }
  apply W. match goal with |- inv _ _ _ (snd (?m u)) => enough (G : holdI s0 tl2 nobody m) by (apply G; exact I2) end.
  apply hi_lift. intros ae Hae. apply act_epoch in Hae. apply hi_bind; [apply hi_quiet; qt|]. intros limit. apply hi_for. intros i Hi.
  assert (Hin : In i (activation_queue u)). { unfold firstN in Hi. rewrite <- (firstn_skipn (N.to_nat limit) (activation_queue u)). apply in_or_app. left. exact Hi. }
  apply hi_mod; [|intros _ v' []]. intros v v' _ [[L1 L2 L3] L4]. destruct (L4 Hin) as [A1 A2]. split; [|intros _; gs; auto]. constructor; gs; auto.
Qed.
(** ... and in electra *)
Lemma r_all n u : PF u -> inv s0 tlink nobody (snd ((let* ae := lift (compute_activation_exit_epoch E (epoch_of E s0)) in
    sfor (rangeN n) (fun i =>
      let* v := rd (fun s => idx (validators s) i) in
      let* e := rd (fun s => Ok (is_eligible_for_activation s v)) in
      swhen e (mod_validator i (set_v_activation_epoch ae)))) u)).
Proof.
  intros [I Hf]. apply rt in I. unfold sbind at 1, lift at 1. destruct (compute_activation_exit_epoch E (epoch_of E s0)) as [ae| | |] eqn:Hae; cbn [snd]; try exact I. apply act_epoch in Hae.
  enough (G : hp PT (sfor (rangeN n) (fun i => let* v := rd (fun s => idx (validators s) i) in let* e := rd (fun s => Ok (is_eligible_for_activation s v)) in
      swhen e (mod_validator i (set_v_activation_epoch ae))))) by (apply (G u); split; assumption).
  apply hp_for. intros i _ t [T1 T2]. unfold sbind at 1, rd at 1. destruct (idx (validators t) i) as [w| | |] eqn:Hw; cbn [snd]; try (split; assumption). apply idx_ok in Hw.
  unfold sbind at 1, rd at 1. cbn beta iota. destruct (is_eligible_for_activation t w) eqn:He; cbn [swhen]; [|split; assumption]. rewrite (mod_validator_run t i _ w Hw). cbn [snd].
  split; [|gs; exact T2]. apply (inv_upd tlink t i w); [exact T1|exact Hw|]. intros v _ [L1 L2 L3]. apply andb_true_iff in He as [H1 H2]. apply N.leb_le in H1. apply N.eqb_eq in H2. rewrite T2 in H1.
  constructor; gs; auto. right. split; [|split; [exact H1|exact Hae]]. destruct L2 as [L2|(L2 & _)]; congruence.
Qed.
Lemma r_registry u : PF u -> inv s0 tlink nobody (snd (process_registry_updates E f u)).
Proof.
  unfold process_registry_updates. revert u. apply (hp_bind PF); [apply hpf; [apply hi_quiet; qt|kfs]|exact pf_pt|]. intros cur u0 Hu0 Hr.
  assert (Hcur : cur = epoch_of E s0). { unfold rd in Hr. cbn [fst] in Hr. rewrite (current_epoch_ok E Hc) in Hr. injection Hr as <-. unfold epoch_of. rewrite (iv_slot _ _ _ _ (proj1 Hu0)). reflexivity. }
  subst cur. clear u0 Hu0 Hr. apply (hp_bind PF); [apply hpf; [apply hi_quiet; qt|kfs]|exact pf_pt|]. intros n u0 _ _. clear u0.
  apply (hp_bind PF); [|exact pf_pt|].
  { apply hpf; [apply hi_for; intros i _; apply r_step|]. unfold registry_step. kfs. apply kf_exit. }
  intros _ u0 _ _ u Hu. pose proof (fun lim => r_queue lim u Hu) as A. pose proof (r_all n u Hu) as B. destruct f; try apply A. apply B.
Qed.
Lemma t_switch i : holdI s0 tlink nobody (switch_to_compounding_validator E i).
Proof.
  unfold switch_to_compounding_validator. apply hi_bind; [apply hi_quiet; qt|]. intros v. destruct (has_eth1_withdrawal_credential v); [|apply hi_quiet; qt].
  apply hi_bind; [|intros _; apply hi_quiet; unfold queue_excess_active_balance; qt]. apply hi_mod; [|intros _ v' []]. intros w w' _ [L1 L2 L3]. constructor; gs; assumption.
Qed.
Lemma t_loop l : forall n, holdI s0 tlink nobody (pending_consolidations_loop E l n).
Proof.
  induction l as [|c l IH]; intros n; cbn [pending_consolidations_loop]; [apply hi_quiet; qt|].
  apply hi_bind; [apply hi_quiet; qt|]. intros src. destruct (v_slashed src); [apply IH|]. apply hi_bind; [apply hi_quiet; qt|]. intros cur. destruct (_ <? _); [apply hi_quiet; qt|].
  apply hi_bind; [apply t_switch|]. intros _. apply hi_bind; [apply hi_quiet; qt|]. intros ab. apply hi_bind; [apply hi_quiet; qt|]. intros _. apply hi_bind; [apply hi_quiet; qt|]. intros _. apply IH.
Qed.
Lemma t_tail u : PF u -> inv s0 tlink nobody (snd (epoch_tail E f u)).
Proof.
  unfold epoch_tail. revert u.
  apply (hp_bind PF). { apply hpf; unfold process_inactivity_updates, inactivity_update_step; [apply hi_quiet; qt|kfs]. } { exact pf_pt. } intros _ u1 _ _.
  apply (hp_bind PF). { apply hpf; unfold process_rewards_and_penalties, apply_deltas; [apply hi_quiet; qt|kfs]. } { exact pf_pt. } intros _ u2 _ _ u Hu.
  pose proof (r_registry u Hu) as R. unfold sbind at 1. destruct (process_registry_updates E f u) as [[a| | |] t]; cbn [snd] in *; try apply R. revert t R.
  match goal with |- forall t, _ -> inv _ _ _ (snd (?m t)) => change (holdI s0 tlink nobody m) end.
  apply hi_bind; [apply hi_quiet; unfold process_slashings, slashings_step; qt|]. intros _.
  apply hi_bind; [apply hi_quiet; unfold process_eth1_data_reset; qt|]. intros _.
  apply hi_bind. { apply hi_when. intros _. apply hi_bind; [apply hi_quiet; unfold process_pending_balance_deposits; qt; apply quiet_deposits|]. intros _. unfold process_pending_consolidations.
    apply hi_bind; [apply hi_quiet; qt|]. intros l. apply hi_bind; [apply t_loop|]. intros n. apply hi_quiet. qt. }
  intros _. apply hi_bind.
  { unfold process_effective_balance_updates, effective_balance_step. apply hi_bind; [apply hi_quiet; qt|]. intros th. apply hi_bind; [apply hi_quiet; qt|]. intros n. apply hi_for. intros i _.
    apply hi_bind; [apply hi_quiet; qt|]. intros v. apply hi_bind; [apply hi_quiet; qt|]. intros ba. apply hi_bind; [apply hi_quiet; qt|]. intros c. apply hi_when. intros _.
    apply hi_bind; [apply hi_quiet; qt|]. intros e. apply hi_mod; [|intros _ v' []]. intros w w' _ [L1 L2 L3]. constructor; gs; assumption. }
  intros _. apply hi_quiet. unfold process_slashings_reset, process_randao_mixes_reset, process_historical_update, process_participation_record_updates, process_participation_flag_updates, process_sync_committee_updates.
  qt.
Qed.
End Ep.
Lemma entry_epoch (E : Env) f s0 t : ctx_sane E -> slot_small s0 -> process_epoch E f s0 = (Ok tt, t) -> inv s0 (tlink E f s0 (cp_epoch (finalized_checkpoint t))) nobody t.
Proof.
  intros Hc Hs H. rewrite epoch_split in H. apply sbind_ok_inv in H as ([] & m & H1 & H2).
  assert (K := kf_tail E f m). rewrite H2 in K. cbn [snd] in K. unfold kf in K.
  assert (I0 : inv s0 (rlink E f s0) nobody s0) by (apply inv_start; intros i v _; constructor; auto).
  assert (Q : holdI s0 (rlink E f s0) nobody (process_justification_and_finalization E f)).
  { apply hi_quiet. unfold process_justification_and_finalization, weigh_justification_and_finalization, justify, finalize_if. qt. }
  specialize (Q s0 I0). rewrite H1 in Q. cbn [snd] in Q.
  pose proof (t_tail E f s0 (cp_epoch (finalized_checkpoint t)) Hc Hs m) as T. rewrite H2 in T. apply T. split; [exact Q|rewrite K; reflexivity].
Qed.

(** ** Upgrades *)
Section Up.
Variable E : Env.
Record vlink (i : N) (v v' : Validator) : Prop := mkVlink {
  vl_pk : v_public_key v' = v_public_key v; vl_act : v_activation_epoch v' = v_activation_epoch v;
  vl_elig : v_activation_eligibility_epoch v' = v_activation_eligibility_epoch v \/ v_activation_eligibility_epoch v' = FAR_FUTURE_EPOCH }.
Definition vup (s t : BeaconState) : Prop := forall i v', nthN (validators t) i = Some v' -> exists v, nthN (validators s) i = Some v /\ vlink i v v'.
Lemma vup_same s t : validators t = validators s -> vup s t.
Proof. intros H i v'. rewrite H. intros Hv. exists v'. split; [exact Hv|]. constructor; auto. Qed.
Lemma vup_electra s t : upgrade_to_electra E s = Ok t -> vup s t.
Proof.
  intros H. unfold upgrade_to_electra in H. apply rbind_ok_inv in H as (e & _ & H). apply rbind_ok_inv in H as (ee & _ & H). apply rbind_ok_inv in H as (ec & _ & H).
  set (s0 := electra_base E e ee ec s) in *. destruct (electra_finish E s0) as [r post] eqn:Hp. apply rbind_ok_inv in H as (u & _ & H). apply Ok_inj in H. subst post.
  assert (I0 : inv s0 vlink nobody s0) by (apply inv_start; intros i v _; constructor; auto).
  assert (K : holdI s0 vlink nobody (electra_finish E)).
  { unfold electra_finish. apply hi_bind; [apply hi_quiet; qt|]. intros a. apply hi_bind; [apply hi_quiet; qt|]. intros _. apply hi_bind; [apply hi_quiet; qt|]. intros c.
    apply hi_bind; [apply hi_quiet; qt|]. intros _. apply hi_bind; [apply hi_quiet; qt|]. intros pre. apply hi_bind; [|intros _; apply hi_quiet; unfold queue_excess_active_balance; qt].
    apply hi_for. intros x _. unfold queue_entire_balance_and_reset_validator. apply hi_bind; [apply hi_quiet; qt|]. intros ba. apply hi_bind; [apply hi_quiet; qt|]. intros _.
    apply hi_bind; [|intros _; apply hi_quiet; qt]. apply hi_mod; [|intros _ v' []]. intros w w' _ [L1 L2 L3]. constructor; gs; auto. }
  specialize (K s0 I0). rewrite Hp in K. cbn [snd] in K.
  intros i v' Hv. destruct (inv_at _ _ _ _ _ _ K Hv) as [(v & A1 & A2)|[_ []]]. exists v. split; [exact A1|exact A2].
Qed.
Lemma vup_call f g s t : chain_call E (f, s) (g, t) -> f <> g -> vup s t.
Proof.
  intros H Hne. inversion H; subst; try congruence.
  - match goal with H : upgrade_to_altair E s = Ok t |- _ => rename H into Hu end. unfold upgrade_to_altair in Hu. rinv Hu. subst t. gs.
    match goal with H : translate_participation _ _ _ = Ok _ |- _ => unfold translate_participation in H; rinv H; subst end. unfold altair_base. gs. apply vup_same; gs; reflexivity.
  - match goal with H : upgrade_to_bellatrix E s = Ok t |- _ => unfold upgrade_to_bellatrix in H; rinv H; subst end. apply vup_same; reflexivity.
  - match goal with H : upgrade_to_capella E s = Ok t |- _ => unfold upgrade_to_capella in H; rinv H; subst end. apply vup_same; reflexivity.
  - match goal with H : upgrade_to_deneb E s = Ok t |- _ => unfold upgrade_to_deneb in H; rinv H; subst end. apply vup_same; reflexivity.
  - apply vup_electra. assumption.
Qed.
End Up.
