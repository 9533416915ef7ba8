(** * Frame: every write the code performs, as a small relation (proof file; no model definitions)

    [prim l s s'] lists the elementary writes possible in layer [l] (block, epoch or slot processing); [evo l] is their
    reflexive transitive closure.  The lemmas below show that every processing function stays within [evo], whatever its
    outcome (success, error or panic). *)
From Verif Require Import Base BaseLemmas Types Ctx Env Helpers HelpersAltair HelpersElectra Block Epoch Transition StLemmas.
From Coq Require Import Relations Permutation.

(** [LEpoch true]: epoch processing including the finality gadget; [LEpoch false]: the steps after it *)
Inductive layer : Type := LBlock | LEpoch (finality : bool) | LSlot.

Section WithEnv.
Variables (E : Env) (f : Fork).

(** an epoch far enough after [c] for the seed look-ahead (overflow-checked builds) *)
Definition late (c q : N) : Prop := chk E = true -> c + 1 + MAX_SEED_LOOKAHEAD E <= q.
(** one field of one validator, during epoch [c] *)
Inductive vstep (c : N) : Validator -> Validator -> Prop :=
| vs_exit v q : v_exit_epoch v = FAR_FUTURE_EPOCH -> late c q -> vstep c v (set_v_exit_epoch q v)
| vs_exit_withdrawable v q w : v_exit_epoch v = FAR_FUTURE_EPOCH -> late c q ->
    vstep c v (set_v_withdrawable_epoch w (set_v_exit_epoch q v))
| vs_raise v w : v_withdrawable_epoch v <= w -> vstep c v (set_v_withdrawable_epoch w v)
| vs_slash v : vstep c v (set_v_slashed true v)
| vs_eligible v e : v_activation_eligibility_epoch v = FAR_FUTURE_EPOCH -> vstep c v (set_v_activation_eligibility_epoch e v)
| vs_activate v e : v_activation_epoch v = FAR_FUTURE_EPOCH -> late c e -> vstep c v (set_v_activation_epoch e v)
| vs_bls v a : cred_prefix v = 0 -> fork_le Capella f = true -> vstep c v (set_v_withdrawal_credentials (1 :: repeat 0 11 ++ a) v)
| vs_compounding v : cred_prefix v = 1 -> f = Electra ->
    vstep c v (set_v_withdrawal_credentials (2 :: skipn 1 (v_withdrawal_credentials v)) v).

(** a freshly registered validator *)
Definition new_validator (v : Validator) : Prop :=
  v_slashed v = false /\ v_activation_eligibility_epoch v = FAR_FUTURE_EPOCH /\ v_activation_epoch v = FAR_FUTURE_EPOCH
  /\ v_exit_epoch v = FAR_FUTURE_EPOCH /\ v_withdrawable_epoch v = FAR_FUTURE_EPOCH
  /\ exists b, v_effective_balance v = N.min (b - b mod EFFECTIVE_BALANCE_INCREMENT E) (MAX_EFFECTIVE_BALANCE E).
Definition register (v : Validator) (b : N) (s : BeaconState) : BeaconState :=
  let s1 := set_balances (balances s ++ [b]) (set_validators (validators s ++ [v]) s) in
  if fork_le Altair f then
    set_inactivity_scores (inactivity_scores s ++ [0])
      (set_current_epoch_participation (current_epoch_participation s ++ [0])
      (set_previous_epoch_participation (previous_epoch_participation s ++ [0]) s1))
  else s1.

(** [new] adds to [old] only flags of [fl], and only for validators of [is] *)
Definition credits (is fl old new : list N) : Prop :=
  lenN new = lenN old /\ forall i p, nthN new i = Some p -> exists q, nthN old i = Some q
    /\ forall k, N.testbit p k = true -> N.testbit q k = true \/ (In i is /\ In k fl).

Inductive prim : layer -> BeaconState -> BeaconState -> Prop :=
| p_val l s i v v' : nthN (validators s) i = Some v -> vstep (slot s / SLOTS_PER_EPOCH E) v v' ->
    prim l s (set_validators (updN (validators s) i v') s)
| p_effective fin s i v b : nthN (validators s) i = Some v -> prim (LEpoch fin) s (set_validators (updN (validators s) i
    (set_v_effective_balance (N.min (b - b mod EFFECTIVE_BALANCE_INCREMENT E) (effective_balance_limit E f v)) v)) s)
| p_bal l s b : lenN b = lenN (balances s) -> prim l s (set_balances b s)
| p_new s v b : position_pk (v_public_key v) (validators s) 0 = None -> new_validator v -> prim LBlock s (register v b s)
| p_slashings l s x : lenN x = lenN (slashings s) -> prim l s (set_slashings x s)
| p_randao s x : prim LBlock s (set_randao_mixes (updN (randao_mixes s) (slot s / SLOTS_PER_EPOCH E mod EPOCHS_PER_HISTORICAL_VECTOR E) x) s)
| p_randao_next fin s n x : add E (slot s / SLOTS_PER_EPOCH E) 1 = Ok n ->
    prim (LEpoch fin) s (set_randao_mixes (updN (randao_mixes s) (n mod EPOCHS_PER_HISTORICAL_VECTOR E) x) s)
| p_votes l s x : prim l s (set_eth1_data_votes x s)
| p_eth1 s x : prim LBlock s (set_eth1_data x s)
| p_deposit_index s x : add E (eth1_deposit_index s) 1 = Ok x -> prim LBlock s (set_eth1_deposit_index x s)
| p_header_block s h : prim LBlock s (set_latest_block_header h s)
| p_header_slot s h : prim LSlot s (set_latest_block_header h s)
| p_payload s h : prim LBlock s (set_latest_execution_payload_header h s)
| p_nwi s x : prim LBlock s (set_next_withdrawal_index x s)
| p_nwvi s x : prim LBlock s (set_next_withdrawal_validator_index x s)
| p_cur_att s att a : attestation_checks_phase0 E att s = Ok (true, a) ->
    prim LBlock s (set_current_epoch_attestations (current_epoch_attestations s ++ [a]) s)
| p_prev_att s att a : attestation_checks_phase0 E att s = Ok (false, a) ->
    prim LBlock s (set_previous_epoch_attestations (previous_epoch_attestations s ++ [a]) s)
| p_records fin s : prim (LEpoch fin) s (set_current_epoch_attestations [] (set_previous_epoch_attestations (current_epoch_attestations s) s))
| p_cur_part s att fl is x : lenN x = lenN (current_epoch_participation s) -> attestation_checks E f att s = Ok (true, fl, is) ->
    credits is fl (current_epoch_participation s) x -> prim LBlock s (set_current_epoch_participation x s)
| p_prev_part s att fl is x : lenN x = lenN (previous_epoch_participation s) -> attestation_checks E f att s = Ok (false, fl, is) ->
    credits is fl (previous_epoch_participation s) x -> prim LBlock s (set_previous_epoch_participation x s)
| p_receipts_start s x : prim LBlock s (set_deposit_receipts_start_index x s)
| p_exit_budget l s x : prim l s (set_exit_balance_to_consume x s)
| p_exit_epoch l s x : prim l s (set_earliest_exit_epoch x s)
| p_cons_budget l s x : prim l s (set_consolidation_balance_to_consume x s)
| p_cons_epoch l s x : prim l s (set_earliest_consolidation_epoch x s)
| p_pbd l s x : prim l s (set_pending_balance_deposits x s)
| p_ppw l s x : prim l s (set_pending_partial_withdrawals x s)
| p_pc l s x : prim l s (set_pending_consolidations x s)
| p_bits s x : (lenN (justification_bits s) = 4 -> lenN x = 4) -> prim (LEpoch true) s (set_justification_bits x s)
| p_prev_just s : prim (LEpoch true) s (set_previous_justified_checkpoint (current_justified_checkpoint s) s)
| p_cur_just s x : prim (LEpoch true) s (set_current_justified_checkpoint x s)
| p_final s x : prim (LEpoch true) s (set_finalized_checkpoint x s)
| p_scores fin s x : lenN x = lenN (inactivity_scores s) -> prim (LEpoch fin) s (set_inactivity_scores x s)
| p_hist_roots fin s r : prim (LEpoch fin) s (set_historical_roots (historical_roots s ++ [r]) s)
| p_hist_sums fin s h : prim (LEpoch fin) s (set_historical_summaries (historical_summaries s ++ [h]) s)
| p_rotate fin s : prim (LEpoch fin) s (set_current_epoch_participation (repeatN 0 (lenN (validators s)))
                 (set_previous_epoch_participation (current_epoch_participation s) s))
| p_cur_sync fin s x : prim (LEpoch fin) s (set_current_sync_committee x s)
| p_next_sync fin s x : prim (LEpoch fin) s (set_next_sync_committee x s)
| p_dep_budget fin s x : prim (LEpoch fin) s (set_deposit_balance_to_consume x s)
| p_state_roots s x : lenN x = lenN (state_roots s) -> prim LSlot s (set_state_roots x s)
| p_block_roots s x : lenN x = lenN (block_roots s) -> prim LSlot s (set_block_roots x s)
| p_slot s n : add E (slot s) 1 = Ok n -> prim LSlot s (set_slot n s).

Definition evo (l : layer) : BeaconState -> BeaconState -> Prop := clos_refl_trans _ (prim l).
Definition evp {A} (l : layer) (m : St BeaconState A) : Prop := pres (evo l) m.

Lemma evo_refl l s : evo l s s. Proof. apply rt_refl. Qed.
Lemma evo_trans l a b c : evo l a b -> evo l b c -> evo l a c. Proof. apply rt_trans. Qed.
Lemma evo_prim l a b : prim l a b -> evo l a b. Proof. apply rt_step. Qed.

Lemma ep_ret {A} l (a : A) : evp l (sret a). Proof. apply pres_ret. apply evo_refl. Qed.
Lemma ep_rd {A} l (g : BeaconState -> res A) : evp l (rd g). Proof. apply pres_rd. apply evo_refl. Qed.
Lemma ep_lift {A} l (r : res A) : evp l (lift r). Proof. apply pres_lift. apply evo_refl. Qed.
Lemma ep_md l g : (forall s, evo l s (g s)) -> evp l (md g). Proof. apply pres_md. Qed.
Lemma ep_bind {A B} l (m : St BeaconState A) (k : A -> St BeaconState B) : evp l m -> (forall a, evp l (k a)) -> evp l (sbind m k).
Proof. apply pres_bind. apply evo_trans. Qed.
Lemma ep_when l c m : evp l m -> evp l (swhen c m). Proof. apply pres_when. apply evo_refl. Qed.
Lemma ep_for {A} l (xs : list A) body : (forall x, evp l (body x)) -> evp l (sfor xs body).
Proof. apply pres_for. apply evo_refl. apply evo_trans. Qed.
Lemma ep_fold {A B} l (xs : list A) (body : B -> A -> St BeaconState B) b : (forall b x, evp l (body b x)) -> evp l (sfold body xs b).
Proof. intros. apply pres_fold; auto. apply evo_refl. apply evo_trans. Qed.
Lemma ep_rd_bind {A B} l (g : BeaconState -> res A) (k : A -> St BeaconState B) :
  (forall s a, g s = Ok a -> evo l s (snd (k a s))) -> evp l (sbind (rd g) k).
Proof. apply pres_rd_bind. apply evo_refl. Qed.
(** the prefix [m] only reads: it keeps the state *)
Definition keeps {A} (m : St BeaconState A) : Prop := forall s, snd (m s) = s.
End WithEnv.

Create HintDb frame.
Ltac fr1 :=
  match goal with
  | |- forall _, _ => intro
  | |- evp _ _ _ (sbind _ _) => apply ep_bind
  | |- evp _ _ _ (rd _) => apply ep_rd
  | |- evp _ _ _ (lift _) => apply ep_lift
  | |- evp _ _ _ (sret _) => apply ep_ret
  | |- evp _ _ _ (swhen _ _) => apply ep_when
  | |- evp _ _ _ (sfor _ _) => apply ep_for
  | |- evp _ _ _ (sfold _ _ _) => apply ep_fold
  | |- evp _ _ _ (match ?x with _ => _ end) => destruct x
  | |- evp _ _ _ (md _) => apply ep_md; intro
  | |- evp _ _ _ _ => solve [eauto with frame]
  end.
Ltac fr := repeat fr1.

Section Leaves.
Variables (E : Env) (f : Fork).
Notation evp := (evp E f).
Notation evo := (evo E f).

Lemma evp_increase l i d : evp l (increase_balance E i d).
Proof. unfold increase_balance. fr. apply evo_prim, p_bal. apply lenN_updN. Qed.
Lemma evp_decrease l i d : evp l (decrease_balance E i d).
Proof. unfold decrease_balance. fr. apply evo_prim, p_bal. apply lenN_updN. Qed.
Hint Resolve evp_increase evp_decrease : frame.

(** [mod_validator] at a known state *)
Lemma mod_validator_evo l s i g : (forall v, nthN (validators s) i = Some v -> clos_refl_trans _ (vstep E f (slot s / SLOTS_PER_EPOCH E)) v (g v)) ->
  evo l s (snd (mod_validator i g s)).
Proof.
  intros H. unfold mod_validator, sbind, rd, md, idx. destruct (nthN (validators s) i) as [v|] eqn:Hv; cbn; [|apply evo_refl].
  specialize (H v eq_refl). remember (g v) as v' eqn:Hg. clear Hg.
  enough (forall vs, nthN vs i = Some v -> evo l (set_validators vs s) (set_validators (updN vs i v') s)) as Hx.
  { specialize (Hx _ Hv). rewrite set_validators_id in Hx. exact Hx. }
  clear Hv. induction H as [v v' Hs|v|v v' v'' H1 IH1 H2 IH2]; intros vs Hvs.
  - apply evo_prim.
    pose proof (p_val E f l (set_validators vs s) i v v') as P. gsh P. apply P; assumption.
  - rewrite updN_id by exact Hvs. apply evo_refl.
  - eapply evo_trans; [apply IH1; exact Hvs|].
    replace (updN vs i v'') with (updN (updN vs i v') i v'') by apply updN_updN.
    apply IH2. apply nthN_updN_eq. eapply nthN_some; eauto.
Qed.
Lemma evp_mod_any l i g : (forall c v, clos_refl_trans _ (vstep E f c) v (g v)) -> evp l (mod_validator i g).
Proof. intros H s. apply mod_validator_evo. auto. Qed.

Lemma mod_validator_run s i g v : nthN (validators s) i = Some v ->
  mod_validator i g s = (Ok tt, set_validators (updN (validators s) i (g v)) s).
Proof. intros H. unfold mod_validator, sbind, rd, md, idx. rewrite H. reflexivity. Qed.

(** set the exit epoch, then the withdrawable epoch unless its computation fails *)
Lemma evo_exit l s i v q (r : res N) : nthN (validators s) i = Some v -> v_exit_epoch v = FAR_FUTURE_EPOCH -> late E (slot s / SLOTS_PER_EPOCH E) q ->
  evo l s (snd ((mod_validator i (set_v_exit_epoch q) ;; let* w := lift r in mod_validator i (set_v_withdrawable_epoch w)) s)).
Proof.
  intros Hv Hf Hq. rewrite (run_bind _ _ _ _ _ (mod_validator_run s i _ v Hv)).
  destruct r as [w|e| |]; unfold sbind, lift; cbn [snd].
  2-4: apply evo_prim, (p_val E f l s i v); [exact Hv|]; apply vs_exit; assumption.
  rewrite (mod_validator_run _ i _ (set_v_exit_epoch q v)).
  - cbn [snd]. gs. rewrite updN_updN. apply evo_prim, (p_val E f l s i v); [exact Hv|]. apply vs_exit_withdrawable; assumption.
  - gs. apply nthN_updN_eq. eapply nthN_some; eauto.
Qed.

(** exit and activation epochs respect the look-ahead *)
Lemma current_epoch_is s e : get_current_epoch E s = Ok e -> e = slot s / SLOTS_PER_EPOCH E.
Proof. unfold get_current_epoch, compute_epoch_at_slot, udiv. destruct (SLOTS_PER_EPOCH E =? 0); [discriminate|]. intros H. apply Ok_inj in H. congruence. Qed.
Lemma add_exact x y z : chk E = true -> add E x y = Ok z -> z = x + y.
Proof. unfold add, uadd. intros ->. destruct (x + y <? U64); intros H; [apply Ok_inj in H; congruence|discriminate]. Qed.
Lemma act_exit_late c ae : compute_activation_exit_epoch E c = Ok ae -> late E c ae.
Proof.
  intros H Hc. unfold compute_activation_exit_epoch in H. rinv H.
  apply (add_exact _ _ _ Hc) in H, H0. subst. apply N.le_refl.
Qed.
Lemma late_le c q q' : late E c q -> q <= q' -> late E c q'.
Proof. intros H Hq Hc. specialize (H Hc). lia. Qed.
Lemma maxN_above l : forall d, d <= maxN l d.
Proof. induction l as [|x l IH]; intros d; cbn; [lia|]. specialize (IH (N.max d x)). unfold maxN in *. lia. Qed.
Lemma exit_queue_late s q : exit_queue_epoch E s = Ok q -> late E (slot s / SLOTS_PER_EPOCH E) q.
Proof.
  intros H Hc. unfold exit_queue_epoch in H. rinv H. apply current_epoch_is in H0. subst.
  match goal with H : compute_activation_exit_epoch E _ = Ok _ |- _ => apply act_exit_late in H; specialize (H Hc); rename H into Ha end.
  match type of H with context [maxN ?l ?d] => pose proof (maxN_above l d) as Hge end.
  destruct (_ <=? _).
  - apply (add_exact _ _ _ Hc) in H. subst. eapply N.le_trans; [exact Ha|]. eapply N.le_trans; [exact Hge|apply N.le_add_r].
  - apply Ok_inj in H. subst. eapply N.le_trans; eauto.
Qed.
Lemma churn_step_late c pe e0 b0 ae bal r : late E c ae -> churn_step E pe e0 b0 ae bal = Ok r -> late E c (fst r).
Proof.
  intros Ha H Hc. specialize (Ha Hc). unfold churn_step in H. rinv H. subst r. cbn [fst].
  match goal with H : (if ?c then _ else _) = Ok ?x |- _ => destruct c; rinv H; subst x end; cbn [fst].
  - match goal with H : add E (N.max _ _) _ = Ok _ |- _ => apply (add_exact _ _ _ Hc) in H; subst end.
    eapply N.le_trans; [exact Ha|]. eapply N.le_trans; [apply N.le_max_r|apply N.le_add_r].
  - eapply N.le_trans; [exact Ha|apply N.le_max_r].
Qed.
Lemma exit_churn_late b s q s1 : compute_exit_epoch_and_update_churn E b s = (Ok q, s1) -> late E (slot s1 / SLOTS_PER_EPOCH E) q.
Proof.
  unfold compute_exit_epoch_and_update_churn, sbind, rd, md, sret.
  match goal with |- context [match ?m with Ok _ => _ | _ => _ end] => destruct m as [r| | |] eqn:Hr end; intros H; try discriminate H.
  injection H as <- <-. gs. rinv Hr. apply current_epoch_is in Hr0. subst.
  eapply churn_step_late; [|exact Hr]. apply act_exit_late. assumption.
Qed.
Lemma cons_churn_late b s q s1 : compute_consolidation_epoch_and_update_churn E b s = (Ok q, s1) -> late E (slot s1 / SLOTS_PER_EPOCH E) q.
Proof.
  unfold compute_consolidation_epoch_and_update_churn, sbind, rd, md, sret.
  match goal with |- context [match ?m with Ok _ => _ | _ => _ end] => destruct m as [r| | |] eqn:Hr end; intros H; try discriminate H.
  injection H as <- <-. gs. rinv Hr. apply current_epoch_is in Hr0. subst.
  eapply churn_step_late; [|exact Hr]. apply act_exit_late. assumption.
Qed.
Lemma evp_initiate_exit l i : evp l (initiate_validator_exit E i).
Proof.
  unfold initiate_validator_exit. apply ep_rd_bind. intros s v Hv. apply idx_ok in Hv.
  destruct (N.eqb_spec (v_exit_epoch v) FAR_FUTURE_EPOCH) as [Hf|_]; cbn [negb]; [|apply evo_refl].
  unfold sbind at 1, rd. destruct (exit_queue_epoch E s) as [q| | |] eqn:Hq; try apply evo_refl.
  apply evo_exit with (v := v); try assumption. apply exit_queue_late. exact Hq.
Qed.
Lemma exit_churn_vals b s : validators (snd (compute_exit_epoch_and_update_churn E b s)) = validators s.
Proof.
  unfold compute_exit_epoch_and_update_churn, sbind, rd, md, sret.
  match goal with |- context [match ?m with Ok _ => _ | _ => _ end] => destruct m; reflexivity end.
Qed.
Lemma cons_churn_vals b s : validators (snd (compute_consolidation_epoch_and_update_churn E b s)) = validators s.
Proof.
  unfold compute_consolidation_epoch_and_update_churn, sbind, rd, md, sret.
  match goal with |- context [match ?m with Ok _ => _ | _ => _ end] => destruct m; reflexivity end.
Qed.
Lemma evp_exit_churn l b : evp l (compute_exit_epoch_and_update_churn E b).
Proof.
  unfold compute_exit_epoch_and_update_churn. fr.
  eapply evo_trans; apply evo_prim; [apply p_exit_budget|apply p_exit_epoch].
Qed.
Lemma evp_cons_churn l b : evp l (compute_consolidation_epoch_and_update_churn E b).
Proof.
  unfold compute_consolidation_epoch_and_update_churn. fr.
  eapply evo_trans; apply evo_prim; [apply p_cons_budget|apply p_cons_epoch].
Qed.
Hint Resolve evp_exit_churn evp_cons_churn : frame.
(** a computation that leaves the registry alone, then an exit of a validator known not to be exiting *)
Lemma evo_churn_exit {A} l (m : St BeaconState A) (q : A -> N) (r : A -> res N) s i v (k : A -> St BeaconState unit) :
  evp l m -> validators (snd (m s)) = validators s ->
  nthN (validators s) i = Some v -> v_exit_epoch v = FAR_FUTURE_EPOCH ->
  (forall a s1, m s = (Ok a, s1) -> late E (slot s1 / SLOTS_PER_EPOCH E) (q a)) -> (forall a, evp l (k a)) ->
  evo l s (snd ((let* a := m in
     mod_validator i (set_v_exit_epoch (q a)) ;; let* w := lift (r a) in mod_validator i (set_v_withdrawable_epoch w) ;; k a) s)).
Proof.
  intros Hm Hs Hv Hf Hl Hk. specialize (Hm s). unfold sbind at 1. destruct (m s) as [[a|e| |] s1]; cbn [snd] in *; try exact Hm.
  eapply evo_trans; [exact Hm|]. rewrite <- Hs in Hv. specialize (Hl a s1 eq_refl).
  pose proof (evo_exit l s1 i v (q a) (r a) Hv Hf Hl) as H. revert H.
  rewrite !(run_bind _ _ _ _ _ (mod_validator_run s1 i _ v Hv)).
  destruct (r a) as [w|e| |]; unfold sbind at 1 2, lift; cbn [snd]; try (intros H; exact H).
  intros H. eapply evo_trans; [exact H|]. unfold sbind.
  rewrite (mod_validator_run _ i _ (set_v_exit_epoch (q a) v)); [|gs; apply nthN_updN_eq; eapply nthN_some; eauto].
  apply Hk.
Qed.
Lemma sbind_ret_r {A} (m : St BeaconState A) s : sbind m (fun a => sret a) s = m s.
Proof. unfold sbind. destruct (m s) as [[] ?]; reflexivity. Qed.
Lemma evp_initiate_exit_electra l i : evp l (initiate_validator_exit_electra E i).
Proof.
  unfold initiate_validator_exit_electra. apply ep_rd_bind. intros s v Hv. apply idx_ok in Hv.
  destruct (N.eqb_spec (v_exit_epoch v) FAR_FUTURE_EPOCH) as [Hf|_]; cbn [negb]; [|apply evo_refl].
  pose proof (evo_churn_exit l (compute_exit_epoch_and_update_churn E (v_effective_balance v)) (fun q => q)
    (fun q => ok_or (cadd q (MIN_VALIDATOR_WITHDRAWABILITY_DELAY E)) EOverflow) s i v (fun _ => sret tt)
    (evp_exit_churn l _) (exit_churn_vals _ s) Hv Hf (exit_churn_late _ s) (fun _ => ep_ret E f l tt)) as H.
  revert H. unfold sbind at 1 5. destruct (compute_exit_epoch_and_update_churn E (v_effective_balance v) s) as [[q| | |] s1]; try (intros H; exact H).
  cbn [snd]. unfold sbind at 1 4. destruct (mod_validator i (set_v_exit_epoch q) s1) as [[u| | |] s2]; try (intros H; exact H).
  unfold sbind at 1 3. destruct (lift (ok_or (cadd q (MIN_VALIDATOR_WITHDRAWABILITY_DELAY E)) EOverflow) s2) as [[w| | |] s3]; try (intros H; exact H).
  unfold sbind. destruct (mod_validator i (set_v_withdrawable_epoch w) s3) as [[u'| | |] s4]; intros H; exact H.
Qed.
Hint Resolve evp_initiate_exit evp_initiate_exit_electra : frame.
Lemma evp_exit l i : evp l (initiate_exit E f i).
Proof.
  pose proof (evp_initiate_exit l i) as H1. pose proof (evp_initiate_exit_electra l i) as H2.
  unfold initiate_exit. destruct f; assumption.
Qed.
Hint Resolve evp_exit : frame.

Lemma evp_slash l i wb : evp l (slash_validator E f i wb).
Proof.
  unfold slash_validator. fr.
  - apply evp_mod_any. intros c v. apply rt_step. apply vs_slash.
  - apply evp_mod_any. intros c v. apply rt_step. apply vs_raise. lia.
  - apply evo_prim, p_slashings. apply lenN_updN.
Qed.
Hint Resolve evp_slash : frame.

Lemma evp_excess l i : evp l (queue_excess_active_balance E i).
Proof.
  unfold queue_excess_active_balance. fr; apply evo_prim; [apply p_bal, lenN_updN|apply p_pbd].
Qed.
Hint Resolve evp_excess : frame.
Lemma evp_switch l i : f = Electra -> evp l (switch_to_compounding_validator E i).
Proof.
  intros Hfe. unfold switch_to_compounding_validator. apply ep_rd_bind. intros s v Hv. apply idx_ok in Hv.
  destruct (has_eth1_withdrawal_credential v) eqn:Hc; [|apply evo_refl].
  unfold sbind. rewrite (mod_validator_run s i _ v Hv). eapply evo_trans; [|apply evp_excess].
  apply evo_prim, (p_val E f l s i v); [exact Hv|]. apply vs_compounding; [|exact Hfe].
  unfold has_eth1_withdrawal_credential in Hc. apply N.eqb_eq in Hc. exact Hc.
Qed.
Hint Resolve evp_switch : frame.

(** ** Block processing *)
Lemma evp_proposer_slashing op : evp LBlock (process_proposer_slashing E f op).
Proof. unfold process_proposer_slashing. fr. Qed.
Lemma evp_attester_slashing op : evp LBlock (process_attester_slashing E f op).
Proof. unfold process_attester_slashing. fr. Qed.
Lemma credits_refl is fl l : credits is fl l l.
Proof. split; [reflexivity|]. intros i p H. exists p. auto. Qed.
Lemma credits_trans is fl a b c : credits is fl a b -> credits is fl b c -> credits is fl a c.
Proof.
  intros [L1 H1] [L2 H2]. split; [congruence|]. intros i p Hp. destruct (H2 i p Hp) as (q & Hq & B2). destruct (H1 i q Hq) as (r & Hr & B1).
  exists r. split; [exact Hr|]. intros k Hk. destruct (B2 k Hk) as [Hk'|Hk']; auto.
Qed.
(** the state with another participation column that only credits the attesters *)
Definition credited (b : bool) (fl is : list N) (s t : BeaconState) : Prop :=
  exists x, credits is fl (participation b s) x /\ t = set_participation b x s.
Lemma credited_refl b fl is s : credited b fl is s s.
Proof. exists (participation b s). split; [apply credits_refl|]. destruct s, b; reflexivity. Qed.
Lemma credited_trans b fl is s t u : credited b fl is s t -> credited b fl is t u -> credited b fl is s u.
Proof.
  intros (x & Hx & ->) (y & Hy & ->). exists y. split; [|destruct b; reflexivity]. eapply credits_trans; [exact Hx|]. destruct b; exact Hy.
Qed.
Lemma credit_step b fl is i num fw s : In i is -> credited b fl is s (snd (attestation_flag_step E b fl i num fw s)).
Proof.
  intros Hi. unfold attestation_flag_step. destruct (memN (fst fw) fl) eqn:Hm; [|apply credited_refl].
  unfold sbind at 1, rd at 1. destruct (idx (participation b s) i) as [p| | |] eqn:Hp; try apply credited_refl.
  destruct (has_flag p (fst fw)); [apply credited_refl|]. unfold sbind, md, rd. cbn [snd].
  exists (updN (participation b s) i (add_flag p (fst fw))). split; [|reflexivity]. apply idx_ok in Hp. split; [apply lenN_updN|].
  intros j q Hq. destruct (N.eq_dec j i) as [->|Hne].
  - rewrite nthN_updN_eq in Hq by (eapply nthN_some; exact Hp). injection Hq as <-. exists p. split; [exact Hp|]. intros k Hk.
    unfold add_flag in Hk. rewrite N.lor_spec, N.pow2_bits_eqb in Hk. apply orb_true_iff in Hk as [Hk|Hk]; [auto|]. apply N.eqb_eq in Hk. subst k.
    right. split; [exact Hi|]. apply memN_true. exact Hm.
  - rewrite nthN_updN_ne in Hq by congruence. exists q. auto.
Qed.
Lemma credit_steps b fl is i ws : In i is -> forall num, pres (credited b fl is) (sfold (attestation_flag_step E b fl i) ws num).
Proof. intros Hi num. apply pres_fold; [apply credited_refl|apply credited_trans|]. intros n w s. apply credit_step. exact Hi. Qed.
Lemma credit_fold b fl is : forall l, (forall i, In i l -> In i is) -> forall num s,
  credited b fl is s (snd (sfold (fun num i => sfold (attestation_flag_step E b fl i) FLAG_WEIGHTS num) l num s)).
Proof.
  induction l as [|i l IH]; intros Hl num s; cbn [sfold]; [apply credited_refl|].
  unfold sbind at 1. pose proof (credit_steps b fl is i FLAG_WEIGHTS (Hl i (or_introl eq_refl)) num s) as H1.
  destruct (sfold _ FLAG_WEIGHTS num s) as [r t]. cbn [snd] in H1. destruct r as [n| | |]; try exact H1.
  eapply credited_trans; [exact H1|]. apply IH. intros j Hj. apply Hl. right. exact Hj.
Qed.
Lemma evp_attestation a : evp LBlock (process_attestation E f a).
Proof.
  assert (H : evp LBlock (process_attestation_altair E f a)).
  { unfold process_attestation_altair. apply ep_rd_bind. intros s [[b fl] is] Hr. cbn zeta beta iota.
    unfold sbind at 1. pose proof (credit_fold b fl is is (fun i H => H) 0 s) as Hc.
    destruct (sfold _ is 0 s) as [r t]. cbn [snd] in Hc. destruct Hc as (x & Hc & ->).
    assert (Hev : evo LBlock s (set_participation b x s)).
    { apply evo_prim. destruct b; [eapply p_cur_part|eapply p_prev_part]; try exact Hr; try exact Hc; apply Hc. }
    destruct r as [n| | |]; try exact Hev. eapply evo_trans; [exact Hev|].
    generalize (set_participation b x s). clear. intros s. revert s.
    match goal with |- forall s, evo LBlock s (snd (?m s)) => change (evp LBlock m) end. fr. }
  unfold process_attestation. destruct f; try exact H.
  unfold process_attestation_phase0. apply ep_rd_bind. intros s [[|] p] Hr; cbn [fst snd]; unfold md; cbn [snd]; apply evo_prim; [eapply p_cur_att|eapply p_prev_att]; exact Hr.
Qed.
Lemma evo_register s v b : position_pk (v_public_key v) (validators s) 0 = None -> new_validator E v -> evo LBlock s (register f v b s).
Proof. intros. apply evo_prim, p_new; assumption. Qed.
Lemma evo_add_validator s pk wc amount : position_pk pk (validators s) 0 = None ->
  evo LBlock s (snd (add_validator_to_registry E f pk wc amount s)).
Proof.
  intros Hp. destruct (Fork_eq_dec f Electra) as [->|Hne].
  - unfold add_validator_to_registry, md. cbn [snd].
    eapply evo_trans; [|apply evo_prim, p_pbd].
    apply (evo_prim E Electra LBlock s (register Electra (get_validator_from_deposit_electra pk wc) 0 s)).
    apply p_new; [exact Hp|]. repeat split. exists 0. cbn [get_validator_from_deposit_electra v_effective_balance]. lia.
  - assert (Hadd : add_validator_to_registry E f pk wc amount =
       (let* v := lift (get_validator_from_deposit E pk wc amount) in
        md (fun s => set_balances (balances s ++ [amount]) (set_validators (validators s ++ [v]) s)) ;;
        swhen (fork_le Altair f)
         (md (fun s => set_inactivity_scores (inactivity_scores s ++ [0])
             (set_current_epoch_participation (current_epoch_participation s ++ [0])
             (set_previous_epoch_participation (previous_epoch_participation s ++ [0]) s)))))).
    { unfold add_validator_to_registry. destruct f; try reflexivity. contradiction. }
    rewrite Hadd. clear Hadd. unfold get_validator_from_deposit, umod, sub, usub.
    destruct (N.eqb_spec (EFFECTIVE_BALANCE_INCREMENT E) 0) as [H0|H0]; [apply evo_refl|]. cbn [rbind].
    assert (Hm : amount mod EFFECTIVE_BALANCE_INCREMENT E <= amount) by (apply N.mod_le; exact H0).
    apply N.leb_le in Hm. rewrite Hm. cbn [rbind].
    match goal with |- context [lift (Ok ?v)] => set (nv := v) end.
    assert (Hreg : evo LBlock s (register f nv amount s)).
    { apply evo_register; [exact Hp|]. repeat split. exists amount. reflexivity. }
    unfold register in Hreg. unfold sbind, lift, md, swhen. destruct (fork_le Altair f); exact Hreg.
Qed.
Lemma evp_apply_deposit pk wc amount sg : evp LBlock (apply_deposit E f pk wc amount sg).
Proof.
  assert (H : f = Electra -> evp LBlock (apply_deposit_electra E pk wc amount sg)).
  { intros Hfe. unfold apply_deposit_electra. apply ep_rd_bind. intros s o Ho. injection Ho as Ho. subst o.
    destruct (position_pk pk (validators s) 0) as [i|] eqn:Hp.
    - revert s Hp. enough (Hx : evp LBlock (md (fun s => set_pending_balance_deposits (pending_balance_deposits s ++ [mkPBD i amount]) s) ;;
        lift (is_valid_deposit_signature E pk wc amount sg) ;;
        let* v := rd (fun s => idx (validators s) i) in
        swhen (is_compounding_withdrawal_credential wc && has_eth1_withdrawal_credential v) (switch_to_compounding_validator E i))).
      { intros s _. apply Hx. }
      fr. apply evo_prim, p_pbd.
    - unfold sbind, lift. destruct (is_valid_deposit_signature E pk wc amount sg); try apply evo_refl.
      pose proof (evo_add_validator s pk wc amount Hp) as Ha. rewrite Hfe in Ha at 2. exact Ha. }
  assert (H' : evp LBlock (apply_deposit_phase0 E f pk wc amount sg)).
  { unfold apply_deposit_phase0. apply ep_rd_bind. intros s o Ho. injection Ho as Ho. subst o.
    destruct (position_pk pk (validators s) 0) as [i|] eqn:Hp; [apply evp_increase|].
    unfold sbind at 1, lift. destruct (compute_domain E DDeposit None None) as [d| | |]; try apply evo_refl.
    unfold sbind, lift. match goal with |- context [is_err_r ?m] => destruct (is_err_r m) as [[]| | |] end; try apply evo_refl.
    apply evo_add_validator. exact Hp. }
  unfold apply_deposit. destruct f; try exact H'. apply H. reflexivity.
Qed.
Hint Resolve evp_apply_deposit : frame.
Lemma evp_deposit d : evp LBlock (process_deposit E f d).
Proof.
  unfold process_deposit. apply ep_bind; [fr|]. intros _. cbn zeta. apply ep_rd_bind. intros s i Hi.
  rewrite run_md. eapply evo_trans; [apply evo_prim, p_deposit_index; exact Hi|]. apply evp_apply_deposit.
Qed.
Lemma evp_receipt r : f = Electra -> evp LBlock (process_deposit_receipt E r).
Proof.
  intros Hf. unfold process_deposit_receipt. apply ep_bind; [fr|].
  - match goal with |- context [if ?c then _ else _] => destruct c end; [apply evo_prim, p_receipts_start|apply evo_refl].
  - intros _. pose proof (evp_apply_deposit (dr_public_key r) (dr_withdrawal_credentials r) (dr_amount r) (dr_signature r)) as H.
    rewrite Hf in H at 2. exact H.
Qed.
Lemma evp_voluntary_exit op : evp LBlock (process_voluntary_exit E f op).
Proof. unfold process_voluntary_exit. fr. Qed.
Lemma evp_header b : evp LBlock (process_block_header E f b).
Proof. unfold process_block_header. fr. apply evo_prim, p_header_block. Qed.
Lemma evp_randao b : evp LBlock (process_randao E b).
Proof.
  unfold process_randao. apply ep_rd_bind. intros s r Hr. unfold md. cbn [snd]. rinv Hr. subst r. cbn [fst snd].
  match goal with H : get_current_epoch E s = Ok _ |- _ => apply current_epoch_is in H; subst end.
  match goal with H : umod _ _ = Ok _ |- _ => unfold umod in H; destruct (_ =? 0); [discriminate H|]; apply Ok_inj in H; subst end.
  apply evo_prim, p_randao.
Qed.
Lemma evp_eth1 b : evp LBlock (process_eth1_data E b).
Proof. unfold process_eth1_data. fr; apply evo_prim; [apply p_votes|apply p_eth1]. Qed.
Lemma evp_sync sa : evp LBlock (process_sync_aggregate E sa).
Proof. unfold process_sync_aggregate, sync_step. fr. Qed.
Lemma evp_payload b : evp LBlock (process_execution_payload E f b).
Proof. unfold process_execution_payload. fr. apply evo_prim, p_payload. Qed.
Lemma evp_withdrawals p : evp LBlock (process_withdrawals E f p).
Proof.
  unfold process_withdrawals. fr; apply evo_prim; first [apply p_ppw|apply p_nwi|apply p_nwvi].
Qed.
Lemma evp_bls_change op : fork_le Capella f = true -> evp LBlock (process_bls_to_execution_change E op).
Proof.
  intros Hf. unfold process_bls_to_execution_change. apply ep_rd_bind. intros s i Hi. unfold bls_change_checks in Hi.
  rinv Hi. subst i. apply mod_validator_evo. intros v Hv. apply rt_step. apply vs_bls; [|exact Hf].
  rewrite Hv in Hi1. injection Hi1 as ->. apply N.eqb_eq in Hi2. exact Hi2.
Qed.
Lemma evp_withdrawal_request r : evp LBlock (process_execution_layer_withdrawal_request E r).
Proof. unfold process_execution_layer_withdrawal_request. fr. apply evo_prim, p_ppw. Qed.
Lemma evp_consolidation op : evp LBlock (process_consolidation E op).
Proof.
  unfold process_consolidation. cbn zeta. apply ep_rd_bind. intros s [src tgt] Hr. cbn [fst].
  unfold consolidation_checks in Hr. rinv Hr. injection Hr as -> ->.
  apply (evo_churn_exit LBlock (compute_consolidation_epoch_and_update_churn E (v_effective_balance src)) (fun q => q)
          (fun _ => add E (v_exit_epoch src) (MIN_VALIDATOR_WITHDRAWABILITY_DELAY E)) s (cn_source_index (scn_message op)) src
          (fun _ => md (fun s => set_pending_consolidations (pending_consolidations s ++ [mkPC (cn_source_index (scn_message op)) (cn_target_index (scn_message op))]) s))).
  - apply evp_cons_churn.
  - apply cons_churn_vals.
  - assumption.
  - apply N.eqb_eq; assumption.
  - intros a s1. apply cons_churn_late.
  - intros _. fr. apply evo_prim, p_pc.
Qed.
Hint Resolve evp_proposer_slashing evp_attester_slashing evp_attestation evp_deposit evp_receipt evp_voluntary_exit evp_header
  evp_randao evp_eth1 evp_sync evp_payload evp_withdrawals evp_bls_change evp_withdrawal_request evp_consolidation : frame.
Lemma ep_when_true l c m : (c = true -> evp l m) -> evp l (swhen c m).
Proof. intros H. destruct c; [apply H; reflexivity|apply ep_ret]. Qed.
Lemma fork_le_electra : fork_le Electra f = true -> f = Electra.
Proof. destruct f; intros H; try discriminate H; reflexivity. Qed.
Lemma evp_operations b : evp LBlock (process_operations E f b).
Proof.
  unfold process_operations.
  do 6 (apply ep_bind; [solve [fr]|intros _]).
  apply ep_bind; [apply ep_when_true; intros Hc; solve [fr]|intros _].
  apply ep_when_true; intros Hc. apply fork_le_electra in Hc. solve [fr].
Qed.
End Leaves.
Global Hint Resolve evp_increase evp_decrease evp_exit_churn evp_cons_churn evp_initiate_exit evp_initiate_exit_electra evp_exit evp_slash
  evp_excess evp_switch evp_apply_deposit evp_proposer_slashing evp_attester_slashing evp_attestation evp_deposit evp_receipt
  evp_voluntary_exit evp_header evp_randao evp_eth1 evp_sync evp_payload evp_withdrawals evp_bls_change evp_withdrawal_request
  evp_consolidation evp_operations : frame.

Lemma evp_block E f b : evp E f LBlock (process_block E f b).
Proof. unfold process_block. cbn zeta. destruct f; fr. Qed.

(** ** Epoch processing *)
Section Finality.
Variables (E : Env) (f : Fork).
Notation evp := (evp E f (LEpoch true)).
Notation evo := (evo E f (LEpoch true)).

Lemma evp_justify e b : evp (justify E e b).
Proof.
  unfold justify. fr. eapply evo_trans; apply evo_prim; [apply p_bits; rewrite lenN_updN; intros H; exact H|apply p_cur_just].
Qed.
Hint Resolve evp_justify : frame.
Lemma evp_weigh t p c : evp (weigh_justification_and_finalization E t p c).
Proof.
  unfold weigh_justification_and_finalization, finalize_if. fr; apply evo_prim;
    try apply p_final; try apply p_prev_just. apply p_bits. intros H.
  rewrite lenN_cons. unfold lenN in *. rewrite firstn_length. lia.
Qed.
Hint Resolve evp_weigh : frame.
Lemma evp_jf : evp (process_justification_and_finalization E f).
Proof. unfold process_justification_and_finalization. fr. Qed.
End Finality.
Section EpochLeaves.
Variables (E : Env) (f : Fork) (fin : bool).
Notation evp := (evp E f (LEpoch fin)).
Notation evo := (evo E f (LEpoch fin)).

Lemma evp_inactivity : evp (process_inactivity_updates E).
Proof. unfold process_inactivity_updates, inactivity_update_step. fr; apply evo_prim, p_scores, lenN_updN. Qed.
Lemma evp_deltas n d : evp (apply_deltas E n d).
Proof. unfold apply_deltas. fr. Qed.
Hint Resolve evp_deltas : frame.
Lemma evp_rewards : evp (process_rewards_and_penalties E f).
Proof. unfold process_rewards_and_penalties. fr. Qed.
Hint Resolve evp_inactivity evp_rewards : frame.

Lemma queue_eligible_far v : queue_eligible E f v = true -> v_activation_eligibility_epoch v = FAR_FUTURE_EPOCH.
Proof.
  unfold queue_eligible, is_eligible_for_activation_queue_electra, is_eligible_for_activation_queue.
  destruct f; intros H; apply andb_true_iff in H as [H _]; apply N.eqb_eq in H; exact H.
Qed.
Lemma evp_registry_step cur i : evp (registry_step E f cur i).
Proof.
  unfold registry_step. apply ep_rd_bind. intros s v Hv. apply idx_ok in Hv.
  enough (Hx : evo s (snd (swhen (queue_eligible E f v) (let* e := lift (add E cur 1) in mod_validator i (set_v_activation_eligibility_epoch e)) s))).
  { unfold sbind at 1. destruct (swhen _ _ s) as [[u| | |] s1]; cbn [snd] in *; try exact Hx.
    eapply evo_trans; [exact Hx|]. revert s1 Hx. intros s1 _. revert s1. change (evp (let* v' := rd (fun s0 : BeaconState => idx (validators s0) i) in
      swhen (is_active_validator v' cur && (v_effective_balance v' <=? EJECTION_BALANCE E)) (initiate_exit E f i))). fr. }
  destruct (queue_eligible E f v) eqn:Hq; [|apply evo_refl]. cbn [swhen]. unfold sbind, lift. destruct (add E cur 1); try apply evo_refl.
  apply mod_validator_evo. intros w Hw. apply rt_step, vs_eligible. apply queue_eligible_far. congruence.
Qed.
Hint Resolve evp_registry_step : frame.

Definition not_activated (s : BeaconState) (i : N) : Prop := forall v, nthN (validators s) i = Some v -> v_activation_epoch v = FAR_FUTURE_EPOCH.
(** steps that keep the slot, run during epoch [c] *)
Lemma evo_slot s t : evo s t -> slot t = slot s.
Proof.
  induction 1 as [a b H|a|a b c H1 IH1 H2 IH2]; [|reflexivity|congruence].
  inversion H; subst; gs; reflexivity.
Qed.
Definition evps {A} (c : N) (m : St BeaconState A) : Prop := forall s, slot s / SLOTS_PER_EPOCH E = c -> evo s (snd (m s)).
Lemma eps_of {A} c (m : St BeaconState A) : evp m -> evps c m. Proof. intros H s _. apply H. Qed.
Lemma eps_bind {A B} c (m : St BeaconState A) (k : A -> St BeaconState B) : evp m -> (forall a, evps c (k a)) -> evps c (sbind m k).
Proof.
  intros Hm Hk s Hs. specialize (Hm s). unfold sbind. destruct (m s) as [[a| | |] t]; cbn [snd] in *; try exact Hm.
  eapply evo_trans; [exact Hm|]. apply Hk. rewrite (evo_slot _ _ Hm). exact Hs.
Qed.
Lemma eps_for {A} c (l : list A) body : (forall x, evps c (body x)) -> evps c (sfor l body).
Proof.
  intros H. induction l as [|x l IH]; intros s Hs; [apply evo_refl|]. rewrite sfor_cons. specialize (H x s Hs). unfold sbind.
  destruct (body x s) as [[a| | |] t]; cbn [snd] in *; try exact H. eapply evo_trans; [exact H|]. apply IH. rewrite (evo_slot _ _ H). exact Hs.
Qed.
Lemma evo_activate ae l : forall s, late E (slot s / SLOTS_PER_EPOCH E) ae -> NoDup l -> (forall i, In i l -> not_activated s i) ->
  evo s (snd (sfor l (fun i => mod_validator i (set_v_activation_epoch ae)) s)).
Proof.
  induction l as [|i l IH]; intros s Hae Hnd H; [apply evo_refl|]. inversion Hnd; subst. rewrite sfor_cons.
  destruct (nthN (validators s) i) as [v|] eqn:Hv.
  - rewrite (run_bind _ _ _ _ _ (mod_validator_run s i _ v Hv)). eapply evo_trans; [|apply IH; [gs; exact Hae|assumption|]].
    + apply evo_prim, (p_val E f (LEpoch fin) s i v); [exact Hv|]. apply vs_activate; [|exact Hae]. eapply H; [left; reflexivity|exact Hv].
    + intros j Hj w Hw. gsh Hw. rewrite nthN_updN_ne in Hw by (intros ->; contradiction). eapply H; [right; exact Hj|exact Hw].
  - unfold sbind, mod_validator, sbind, rd, idx. rewrite Hv. apply evo_refl.
Qed.

(** the activation queue lists distinct, not yet activated validators *)
Lemma key_insert_perm x l : Permutation (x :: l) (key_insert x l).
Proof.
  induction l as [|y l IH]; [reflexivity|]. cbn [key_insert]. destruct (key_leb x y); [reflexivity|].
  rewrite <- IH. apply perm_swap.
Qed.
Lemma key_sort_perm l : Permutation l (key_sort l).
Proof. induction l as [|x l IH]; [reflexivity|]. cbn [key_sort fold_right]. rewrite <- key_insert_perm. apply perm_skip, IH. Qed.
Lemma In_eligible_activations s vs k x i : In (x, i) (eligible_activations s vs k) <->
  k <= i /\ exists v, nthN vs (i - k) = Some v /\ is_eligible_for_activation s v = true /\ x = v_activation_eligibility_epoch v.
Proof.
  revert k; induction vs as [|v vs IH]; intros k; cbn [eligible_activations].
  - split; [intros []|intros (_ & v & Hv & _); discriminate].
  - rewrite in_app_iff, IH. split.
    + intros [H|(Hle & w & Hw & He & Hx)].
      * destruct (is_eligible_for_activation s v) eqn:He; [|destruct H]. destruct H as [[= <- <-]|[]].
        split; [lia|]. exists v. rewrite N.sub_diag. auto.
      * split; [lia|]. exists w. split; [|auto]. rewrite nthN_cons. destruct (N.eqb_spec (i - k) 0); [lia|].
        replace (i - k - 1) with (i - (k + 1)) by lia. exact Hw.
    + intros (Hle & w & Hw & He & Hx). rewrite nthN_cons in Hw. destruct (N.eqb_spec (i - k) 0).
      * injection Hw as ->. left. rewrite He. left. f_equal; [congruence|lia].
      * right. split; [lia|]. exists w. split; [|auto]. replace (i - (k + 1)) with (i - k - 1) by lia. exact Hw.
Qed.
Lemma NoDup_eligible_activations s vs k : NoDup (map snd (eligible_activations s vs k)).
Proof.
  revert k; induction vs as [|v vs IH]; intros k; cbn [eligible_activations]; [constructor|]. rewrite map_app.
  destruct (is_eligible_for_activation s v); cbn [map app]; [|apply IH]. constructor; [|apply IH].
  intros Hin. apply in_map_iff in Hin as ([x i] & Hs & Hin). apply In_eligible_activations in Hin. cbn in Hs. lia.
Qed.
Lemma NoDup_activation_queue s : NoDup (activation_queue s).
Proof.
  unfold activation_queue. eapply Permutation_NoDup; [|apply (NoDup_eligible_activations s (validators s) 0)].
  apply Permutation_map, key_sort_perm.
Qed.
Lemma In_activation_queue s i : In i (activation_queue s) <->
  exists v, nthN (validators s) i = Some v /\ is_eligible_for_activation s v = true.
Proof.
  unfold activation_queue. rewrite in_map_iff. split.
  - intros ([x j] & <- & H). eapply Permutation_in in H; [|symmetry; apply key_sort_perm].
    apply In_eligible_activations in H as (_ & v & Hv & He & _). cbn [snd]. rewrite N.sub_0_r in Hv. eauto.
  - intros (v & Hv & He). exists (v_activation_eligibility_epoch v, i). split; [reflexivity|].
    eapply Permutation_in; [apply key_sort_perm|]. apply In_eligible_activations. split; [lia|].
    exists v. rewrite N.sub_0_r. auto.
Qed.
Lemma activatable_far s v : is_eligible_for_activation s v = true -> v_activation_epoch v = FAR_FUTURE_EPOCH.
Proof. unfold is_eligible_for_activation. intros H. apply andb_true_iff in H as [_ H]. apply N.eqb_eq in H. exact H. Qed.
Lemma NoDup_firstn {A} n (l : list A) : NoDup l -> NoDup (firstn n l).
Proof.
  revert n; induction l as [|x l IH]; intros [|n] H; cbn [firstn]; try constructor; inversion H; subst; auto.
  intros Hin. apply H2. revert Hin. generalize (firstn_skipn n l). intros Hs Hi. rewrite <- Hs. apply in_or_app. left; exact Hi.
Qed.
Lemma In_firstn {A} n (l : list A) x : In x (firstn n l) -> In x l.
Proof. intros H. rewrite <- (firstn_skipn n l). apply in_or_app. left; exact H. Qed.

Lemma evp_registry : evp (process_registry_updates E f).
Proof.
  unfold process_registry_updates. apply ep_rd_bind. intros s0 cur Hcur. apply current_epoch_is in Hcur.
  enough (H : evps cur (let* n := rd (fun s => Ok (lenN (validators s))) in
    sfor (rangeN n) (registry_step E f cur) ;;
    match f with
    | Electra =>
        let* ae := lift (compute_activation_exit_epoch E cur) in
        sfor (rangeN n) (fun i =>
          let* v := rd (fun s => idx (validators s) i) in
          let* e := rd (fun s => Ok (is_eligible_for_activation s v)) in
          swhen e (mod_validator i (set_v_activation_epoch ae)))
    | _ =>
        let* queue := rd (fun s => Ok (activation_queue s)) in
        let* ae := lift (compute_activation_exit_epoch E cur) in
        let* limit := rd (activation_limit E f) in
        sfor (firstN limit queue) (fun i => mod_validator i (set_v_activation_epoch ae))
    end)) by (apply H; symmetry; exact Hcur).
  apply eps_bind; [fr|]. intros n. apply eps_bind; [fr|]. intros _.
  assert (Hother : forall F : BeaconState -> res N, evps cur (
    let* queue := rd (fun s => Ok (activation_queue s)) in
    let* ae := lift (compute_activation_exit_epoch E cur) in
    let* limit := rd F in
    sfor (firstN limit queue) (fun i => mod_validator i (set_v_activation_epoch ae)))).
  { intros F s Hs. unfold sbind at 1, rd at 1. unfold sbind at 1, lift. destruct (compute_activation_exit_epoch E cur) as [ae| | |] eqn:Hae; try apply evo_refl.
    unfold sbind, rd. destruct (F s) as [limit| | |]; try apply evo_refl. apply evo_activate.
    - rewrite Hs. apply act_exit_late. exact Hae.
    - apply NoDup_firstn, NoDup_activation_queue.
    - intros i Hi v Hv. apply In_firstn, In_activation_queue in Hi as (w & Hw & He). apply activatable_far with s. congruence. }
  assert (Hel : evps cur (let* ae := lift (compute_activation_exit_epoch E cur) in
    sfor (rangeN n) (fun i =>
      let* v := rd (fun s => idx (validators s) i) in
      let* e := rd (fun s => Ok (is_eligible_for_activation s v)) in
      swhen e (mod_validator i (set_v_activation_epoch ae))))).
  { intros s Hs. unfold sbind at 1, lift. destruct (compute_activation_exit_epoch E cur) as [ae| | |] eqn:Hae; try apply evo_refl.
    revert s Hs. apply eps_for. intros i s Hs. unfold sbind at 1, rd at 1. destruct (idx (validators s) i) as [v| | |] eqn:Hv; try apply evo_refl.
    apply idx_ok in Hv. unfold sbind at 1, rd. destruct (is_eligible_for_activation s v) eqn:He; [|apply evo_refl].
    cbn [swhen]. apply mod_validator_evo. intros w Hw. apply rt_step, vs_activate; [apply activatable_far with s; congruence|].
    rewrite Hs. apply act_exit_late. exact Hae. }
  destruct f; first [exact Hel|apply Hother].
Qed.
Lemma evp_slashings : evp (process_slashings E f).
Proof. unfold process_slashings, slashings_step. fr. Qed.
Lemma evp_eth1_reset : evp (process_eth1_data_reset E).
Proof. unfold process_eth1_data_reset. fr. apply evo_prim, p_votes. Qed.
Lemma evp_effective_step down up i : evp (effective_balance_step E f down up i).
Proof.
  unfold effective_balance_step. apply ep_rd_bind. intros s v Hv. apply idx_ok in Hv. cbn zeta.
  unfold sbind at 1, rd at 1. destruct (idx (balances s) i) as [b| | |]; try apply evo_refl.
  unfold sbind at 1, lift at 1. match goal with |- context [match ?m with Ok _ => _ | _ => _ end] => destruct m as [[]| | |] end; try apply evo_refl.
  cbn [swhen]. unfold sbind, lift, umod, sub, usub. destruct (N.eqb_spec (EFFECTIVE_BALANCE_INCREMENT E) 0) as [|H0]; [apply evo_refl|]. cbn [rbind].
  assert (Hm : b mod EFFECTIVE_BALANCE_INCREMENT E <= b) by (apply N.mod_le; exact H0). apply N.leb_le in Hm. rewrite Hm.
  rewrite (mod_validator_run s i _ v Hv). cbn [snd]. apply evo_prim, p_effective. exact Hv.
Qed.
Hint Resolve evp_effective_step : frame.
Lemma evp_effective : evp (process_effective_balance_updates E f).
Proof. unfold process_effective_balance_updates. fr. Qed.
Lemma evp_slashings_reset : evp (process_slashings_reset E).
Proof. unfold process_slashings_reset. fr. apply evo_prim, p_slashings, lenN_updN. Qed.
Lemma evp_randao_reset : evp (process_randao_mixes_reset E).
Proof.
  unfold process_randao_mixes_reset. apply ep_rd_bind. intros s r Hr. unfold md. cbn [snd]. rinv Hr. subst r. cbn [fst snd].
  match goal with H : next_epoch E s = Ok ?n |- _ => rename n into nx; unfold next_epoch in H; rinv H end.
  repeat match goal with H : get_current_epoch E s = Ok _ |- _ => apply current_epoch_is in H; subst end.
  match goal with H : umod _ _ = Ok _ |- _ => unfold umod in H; destruct (_ =? 0); [discriminate H|]; apply Ok_inj in H; subst end.
  apply evo_prim. eapply p_randao_next. eassumption.
Qed.
Lemma evp_historical : evp (process_historical_update E f).
Proof.
  unfold process_historical_update. apply ep_bind; [fr|]. intros [h|]; [|fr]. destruct (fork_le Capella f); fr; apply evo_prim; [apply p_hist_sums|apply p_hist_roots].
Qed.
Lemma evp_records : evp process_participation_record_updates.
Proof. unfold process_participation_record_updates. fr. apply evo_prim, p_records. Qed.
Lemma evp_flags : evp process_participation_flag_updates.
Proof. unfold process_participation_flag_updates. fr. apply evo_prim, p_rotate. Qed.
Lemma evp_sync_committees : evp (process_sync_committee_updates E).
Proof. unfold process_sync_committee_updates. fr. eapply evo_trans; apply evo_prim; [apply p_next_sync|apply p_cur_sync]. Qed.
Lemma evp_pending_loop l : forall a p c, evp (pending_deposits_loop E l a p c).
Proof. induction l as [|d l IH]; intros a p c; cbn [pending_deposits_loop]; [fr|]. fr; apply IH. Qed.
Hint Resolve evp_pending_loop : frame.
Lemma evp_pending_deposits : evp (process_pending_balance_deposits E).
Proof. unfold process_pending_balance_deposits. fr; apply evo_prim; [apply p_pbd|apply p_dep_budget]. Qed.
Lemma evp_consolidations_loop l : f = Electra -> forall c, evp (pending_consolidations_loop E l c).
Proof. intros Hf. induction l as [|d l IH]; intros c; cbn [pending_consolidations_loop]; [fr|]. fr; try apply IH. Qed.
Lemma evp_pending_consolidations : f = Electra -> evp (process_pending_consolidations E).
Proof. intros Hf. unfold process_pending_consolidations. fr; [apply evp_consolidations_loop; exact Hf|apply evo_prim; apply p_pc]. Qed.
Hint Resolve evp_registry evp_slashings evp_eth1_reset evp_effective evp_slashings_reset evp_randao_reset evp_historical evp_records
  evp_flags evp_sync_committees evp_pending_deposits evp_pending_consolidations : frame.
End EpochLeaves.
Global Hint Resolve evp_jf evp_inactivity evp_rewards evp_registry evp_slashings evp_eth1_reset evp_effective evp_slashings_reset
  evp_randao_reset evp_historical evp_records evp_flags evp_sync_committees evp_pending_deposits evp_pending_consolidations : frame.
(** everything after the finality gadget *)
Definition epoch_tail (E : Env) (f : Fork) : St BeaconState unit :=
  swhen (fork_le Altair f) (process_inactivity_updates E) ;;
  process_rewards_and_penalties E f ;;
  process_registry_updates E f ;;
  process_slashings E f ;;
  process_eth1_data_reset E ;;
  swhen (fork_le Electra f) (process_pending_balance_deposits E ;; process_pending_consolidations E) ;;
  process_effective_balance_updates E f ;;
  process_slashings_reset E ;;
  process_randao_mixes_reset E ;;
  process_historical_update E f ;;
  (match f with
   | Phase0 => process_participation_record_updates
   | _ => process_participation_flag_updates ;; process_sync_committee_updates E
   end).
Lemma epoch_split E f : process_epoch E f = (process_justification_and_finalization E f ;; epoch_tail E f).
Proof. reflexivity. Qed.
Lemma evp_tail E f fin : evp E f (LEpoch fin) (epoch_tail E f).
Proof.
  unfold epoch_tail. do 5 (apply ep_bind; [solve [fr]|intros _]). apply ep_bind; [|intros _].
  - apply ep_when_true. intros Hf. apply fork_le_electra in Hf. solve [fr].
  - do 4 (apply ep_bind; [solve [fr]|intros _]). destruct f; fr.
Qed.
Lemma evp_epoch E f : evp E f (LEpoch true) (process_epoch E f).
Proof. rewrite epoch_split. apply ep_bind; [apply evp_jf|intros _; apply evp_tail]. Qed.

(** ** Slot processing *)
Lemma evp_slot E f : evp E f LSlot (process_slot E f).
Proof.
  unfold process_slot. fr.
  - apply evo_prim, p_state_roots, lenN_updN.
  - match goal with |- context [if ?c then _ else _] => destruct c end; [apply evo_prim, p_header_slot|apply evo_refl].
  - apply evo_prim, p_block_roots, lenN_updN.
Qed.

(** all layers *)
Definition evo_all (E : Env) (f : Fork) : BeaconState -> BeaconState -> Prop :=
  clos_refl_trans _ (fun a b => exists l, prim E f l a b).
Lemma evo_all_of E f l a b : evo E f l a b -> evo_all E f a b.
Proof. induction 1 as [a b H| |a b c H1 IH1 H2 IH2]; [apply rt_step; eauto|apply rt_refl|eapply rt_trans; eauto]. Qed.
Definition evpa {A} (E : Env) (f : Fork) (m : St BeaconState A) : Prop := pres (evo_all E f) m.
Lemma evpa_of {A} E f l (m : St BeaconState A) : evp E f l m -> evpa E f m.
Proof. intros H s. eapply evo_all_of. apply H. Qed.
Lemma evpa_bind {A B} E f (m : St BeaconState A) (k : A -> St BeaconState B) : evpa E f m -> (forall a, evpa E f (k a)) -> evpa E f (sbind m k).
Proof. apply pres_bind. intros a b c. apply rt_trans. Qed.
Lemma evpa_when E f c m : evpa E f m -> evpa E f (swhen c m). Proof. apply pres_when. intros; apply rt_refl. Qed.
Lemma evpa_rd {A} E f (g : BeaconState -> res A) : evpa E f (rd g). Proof. apply pres_rd. intros; apply rt_refl. Qed.
Lemma evpa_lift {A} E f (r : res A) : evpa E f (lift r). Proof. apply pres_lift. intros; apply rt_refl. Qed.
Lemma evpa_advance E f : evpa E f (advance_slot E f).
Proof.
  unfold advance_slot. apply evpa_bind; [apply (evpa_of E f LSlot), evp_slot|]. intros _.
  apply evpa_bind; [apply evpa_rd|]. intros m. apply evpa_bind; [apply evpa_when, (evpa_of E f (LEpoch true)), evp_epoch|]. intros _.
  intros s. unfold sbind, rd, md. destruct (add E (slot s) 1) as [n| | |] eqn:Hn; cbn; try apply rt_refl.
  apply rt_step. exists LSlot. apply p_slot. exact Hn.
Qed.
Lemma evpa_loop E f n t : evpa E f (slots_loop E f n t).
Proof.
  induction n as [|n IH]; cbn [slots_loop]; apply evpa_bind; try apply evpa_rd; intros sl; destruct (sl <? t);
    try apply evpa_lift; try (intros s; apply rt_refl).
  apply evpa_bind; [apply evpa_advance|intros _; exact IH].
Qed.
Lemma evpa_slots E f t : evpa E f (process_slots E f t).
Proof. unfold process_slots. apply evpa_bind; [apply evpa_rd|]. intros sl. destruct (t <=? sl); [apply evpa_lift|apply evpa_loop]. Qed.
Lemma evpa_block_in_slot E f v sb : evpa E f (state_transition_block_in_slot E f v sb).
Proof.
  unfold state_transition_block_in_slot. apply evpa_bind; [apply evpa_when, evpa_rd|]. intros _.
  apply evpa_bind; [apply (evpa_of E f LBlock), evp_block|]. intros _. apply evpa_when, evpa_rd.
Qed.
Lemma evpa_transition E f v sb : evpa E f (state_transition E f v sb).
Proof. unfold state_transition. apply evpa_bind; [apply evpa_slots|]. intros _. apply evpa_block_in_slot. Qed.
