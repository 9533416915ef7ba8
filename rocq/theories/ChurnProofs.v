(** * How many validators leave per epoch along a chain (proof file; no model definitions) *)
From Verif Require Import Base BaseLemmas Types Ctx Env Helpers HelpersAltair HelpersElectra Block Epoch Transition Upgrade StLemmas
  SpecCommon SpecHelpers SpecFinality SpecCulprits Frame HelperProofs HelperProofs2 BlockProofs SlotProofs CrashProofs DepositProofs LookProofs.
From Coq Require Import Relations.

Section R.
Variable E : Env.
Hypothesis Hc : ctx_sane E.
Hypothesis Hk : chk E = true.
(** the exits scheduled for an epoch grow only up to the churn limit, which stays *)
Definition orderly (s t : BeaconState) : Prop :=
  churn_limit E t = churn_limit E s /\ forall e, e <> FAR_FUTURE_EPOCH -> exits_at t e <= N.max (exits_at s e) (churn_limit E s).
Lemma orderly_refl s : orderly s s. Proof. split; [reflexivity|intros; lia]. Qed.
Lemma orderly_trans a b c : orderly a b -> orderly b c -> orderly a c.
Proof. intros [A1 A2] [B1 B2]. split; [congruence|]. intros e He. specialize (A2 e He). specialize (B2 e He). rewrite A1 in B2. lia. Qed.
Notation pO := (pres orderly).
Definition span (v : Validator) : N * N := (v_activation_epoch v, v_exit_epoch v).
Definition spans (s : BeaconState) := (slot s, map span (validators s)).
Lemma count_map {A B} (g : A -> B) (p : B -> bool) l : lenN (filter (fun x => p (g x)) l) = lenN (filter p (map g l)).
Proof. induction l as [|x l IH]; [reflexivity|]. cbn [filter map]. destruct (p (g x)); rewrite ?lenN_cons, ?IH; reflexivity. Qed.
Lemma exits_spans s e : exits_at s e = lenN (filter (fun p => snd p =? e) (snd (spans s))).
Proof. unfold exits_at, spans. cbn [snd]. rewrite <- (count_map span (fun p => snd p =? e)). reflexivity. Qed.
Lemma churn_spans s : churn_limit E s = N.max (MIN_PER_EPOCH_CHURN_LIMIT E)
  (lenN (filter (fun p => (fst p <=? fst (spans s) / SLOTS_PER_EPOCH E) && (fst (spans s) / SLOTS_PER_EPOCH E <? snd p)) (snd (spans s))) / CHURN_LIMIT_QUOTIENT E).
Proof.
  unfold churn_limit, active_set, epoch_of, spans. cbn [fst snd]. rewrite indices_where_len.
  rewrite <- (count_map span (fun p => (fst p <=? slot s / SLOTS_PER_EPOCH E) && (slot s / SLOTS_PER_EPOCH E <? snd p))). reflexivity.
Qed.
Lemma orderly_spans s t : spans t = spans s -> orderly s t.
Proof. intros H. split; [rewrite !churn_spans, H; reflexivity|]. intros e _. rewrite !exits_spans, H. lia. Qed.
Lemma po_keeps {A} (m : St BeaconState A) : CrashProofs.keeps spans m -> pO m.
Proof. intros H s. apply orderly_spans, H. Qed.

(** ** Functions that leave the activation and exit epochs alone *)
Notation kS := (CrashProofs.keeps spans).
Lemma ks_mod i g : (forall v, span (g v) = span v) -> kS (mod_validator i g).
Proof.
  intros Hg s. unfold mod_validator, sbind, rd, md, idx. destruct (nthN (validators s) i) as [v|] eqn:Hv; cbn [snd]; [|reflexivity].
  exact (f_equal (pair (slot s)) (map_updN_same span _ _ _ _ Hv (Hg v))).
Qed.
Lemma ks_inc i a : kS (increase_balance E i a). Proof. unfold increase_balance. kp. Qed.
Lemma ks_dec i a : kS (decrease_balance E i a). Proof. unfold decrease_balance. kp. Qed.
Ltac ks := repeat first [apply ks_mod; intros ?; reflexivity | apply ks_inc | apply ks_dec
  | apply keeps_rd | apply keeps_lift | apply keeps_ret | apply keeps_md; reflexivity | apply keeps_when | apply keeps_for; intros ? | apply keeps_sfold; intros ? ?
  | apply keeps_md; intros ?; match goal with |- context [if ?c then _ else _] => destruct c end; reflexivity
  | apply keeps_bind; [|intros ?] | progress cbv zeta | match goal with |- CrashProofs.keeps _ (match ?x with _ => _ end) => destruct x end].
Lemma ks_header f b : kS (process_block_header E f b). Proof. unfold process_block_header. ks. Qed.
Lemma ks_randao b : kS (process_randao E b). Proof. unfold process_randao. ks. Qed.
Lemma ks_eth1 b : kS (process_eth1_data E b). Proof. unfold process_eth1_data. kp. Qed.
Lemma ks_sync a : kS (process_sync_aggregate E a). Proof. unfold process_sync_aggregate, sync_step. ks. Qed.
Lemma ks_payload g b : kS (process_execution_payload E g b). Proof. unfold process_execution_payload. ks. Qed.
Lemma ks_withdrawals f p : kS (process_withdrawals E f p). Proof. unfold process_withdrawals. ks. Qed.
Lemma ks_att f op : kS (process_attestation E f op).
Proof. unfold process_attestation, process_attestation_phase0, process_attestation_altair, attestation_flag_step, set_participation. ks. Qed.
Lemma ks_bls op : kS (process_bls_to_execution_change E op). Proof. unfold process_bls_to_execution_change. ks. Qed.

(** ** Exits *)
Lemma queue_exact s q : exit_queue_epoch E s = Ok q -> q = next_exit E s /\ epoch_of E s < FAR_FUTURE_EPOCH.
Proof.
  intros H. unfold exit_queue_epoch in H. rewrite (current_epoch_ok E Hc) in H. cbn [rbind] in H. apply rbind_ok_inv in H as (ae & Ha & H).
  unfold compute_activation_exit_epoch in Ha. apply rbind_ok_inv in Ha as (a1 & A1 & A2).
  assert (Hfar : epoch_of E s < FAR_FUTURE_EPOCH). { unfold add in A1. rewrite Hk in A1. unfold uadd in A1. destruct (N.ltb_spec (epoch_of E s + 1) U64) as [B|B]; [|discriminate]. rewrite U64_val in B. unfold FAR_FUTURE_EPOCH, U64_MAX. pows. lia. }
  apply (add_exact E _ _ _ Hk) in A1. apply (add_exact E _ _ _ Hk) in A2. assert (ae = earliest_exit E s) by (unfold earliest_exit; lia). clear A1 A2. subst ae.
  rewrite (churn_limit_ok E Hc) in H. cbn [rbind] in H. fold (queue_head E s) in H. fold (exits_at s (queue_head E s)) in H. unfold next_exit.
  destruct (churn_limit E s <=? exits_at s (queue_head E s)); [apply (add_exact E _ _ _ Hk) in H; subst; auto|injection H as <-; auto].
Qed.
Lemma orderly_exit s i v q : nthN (validators s) i = Some v -> v_exit_epoch v = FAR_FUTURE_EPOCH -> exit_queue_epoch E s = Ok q ->
  orderly s (set_validators (updN (validators s) i (set_v_exit_epoch q v)) s).
Proof.
  intros Hv Hf Hq. destruct (queue_exact s q Hq) as [-> Hfar]. pose proof (next_exit_bounds E s) as Hb. pose proof (queue_head_earliest E s) as He.
  assert (Hlt : epoch_of E s < next_exit E s) by (unfold earliest_exit in He; lia). set (q := next_exit E s) in *. split.
  - unfold churn_limit. f_equal. f_equal. unfold active_set. rewrite !indices_where_len. change (epoch_of E (set_validators (updN (validators s) i (set_v_exit_epoch q v)) s)) with (epoch_of E s).
    gs. pose proof (filter_upd_count (active_at (epoch_of E s)) (validators s) i v (set_v_exit_epoch q v) Hv) as H.
    assert (Ha : active_at (epoch_of E s) (set_v_exit_epoch q v) = active_at (epoch_of E s) v).
    { unfold active_at. gs. rewrite Hf. destruct (N.ltb_spec (epoch_of E s) q); [|lia]. destruct (N.ltb_spec (epoch_of E s) FAR_FUTURE_EPOCH); [reflexivity|lia]. }
    rewrite Ha in H. destruct (active_at _ v); lia.
  - intros e Hne. unfold exits_at at 1. gs. pose proof (filter_upd_count (fun v => v_exit_epoch v =? e) (validators s) i v (set_v_exit_epoch q v) Hv) as H.
    cbn beta in H. change (v_exit_epoch (set_v_exit_epoch q v)) with q in H. rewrite Hf in H. destruct (N.eqb_spec FAR_FUTURE_EPOCH e) as [X|_]; [congruence|]. fold (exits_at s e) in H.
    destruct (N.eqb_spec q e) as [Hqe|_]; [|lia].
    assert (H1 : 1 <= churn_limit E s) by (unfold churn_limit; ctxs Hc; lia).
    unfold q, next_exit in Hqe. destruct (N.leb_spec (churn_limit E s) (exits_at s (queue_head E s))) as [Hge|Hl]; [|rewrite <- Hqe in H |- *; lia].
    assert (Hz : exits_at s e = 0) by (apply (exits_at_beyond E); [lia|exact Hne]). lia.
Qed.
Lemma po_bind {A B} (m : St BeaconState A) (k : A -> St BeaconState B) : pO m -> (forall a, pO (k a)) -> pO (sbind m k).
Proof. apply pres_bind. exact orderly_trans. Qed.
Lemma po_exit f i : f <> Electra -> pO (initiate_exit E f i).
Proof.
  intros Hf. assert (He : initiate_exit E f i = initiate_validator_exit E i) by (destruct f; try reflexivity; contradiction). rewrite He. clear He.
  intros s. unfold initiate_validator_exit. unfold sbind at 1, rd at 1, idx. destruct (nthN (validators s) i) as [v|] eqn:Hv; cbn [expect snd]; [|apply orderly_refl].
  destruct (N.eqb_spec (v_exit_epoch v) FAR_FUTURE_EPOCH) as [Hx|Hx]; cbn [negb]; [|apply orderly_refl].
  unfold sbind at 1, rd at 1. destruct (exit_queue_epoch E s) as [q| | |] eqn:Hq; cbn [snd]; try apply orderly_refl.
  unfold mod_validator at 1. unfold sbind at 1, sbind at 1, rd at 1, idx. rewrite Hv. cbn [expect]. unfold md at 1.
  eapply orderly_trans; [apply (orderly_exit s i v q Hv Hx Hq)|]. apply orderly_spans.
  match goal with |- spans (snd (?m ?t)) = spans ?t => generalize t; change (kS m) end. ks.
Qed.
Lemma po_slash f i w : f <> Electra -> pO (slash_validator E f i w).
Proof. intros Hf. unfold slash_validator. apply po_bind; [apply po_keeps; kp|intros ?]. apply po_bind; [apply po_exit; exact Hf|intros ?]. apply po_keeps. ks. Qed.
Lemma po_pslash f op : f <> Electra -> pO (process_proposer_slashing E f op).
Proof. intros Hf. unfold process_proposer_slashing. apply po_bind; [apply po_keeps; kp|intros ?]. apply po_slash. exact Hf. Qed.
Lemma po_aslash f op : f <> Electra -> pO (process_attester_slashing E f op).
Proof.
  intros Hf. unfold process_attester_slashing. apply po_bind; [apply po_keeps; kp|intros ?]. apply po_bind; [apply po_keeps; kp|intros ?]. apply po_bind; [|intros ?; apply po_keeps; kp].
  apply pres_fold; [exact orderly_refl|exact orderly_trans|]. intros b x. apply po_bind; [apply po_keeps; kp|intros v]. destruct (is_slashable_validator v _); [|apply po_keeps; kp].
  apply po_bind; [apply po_slash; exact Hf|intros ?; apply po_keeps; kp].
Qed.
Lemma po_ve f op : f <> Electra -> pO (process_voluntary_exit E f op).
Proof. intros Hf. unfold process_voluntary_exit. apply po_bind; [apply po_keeps; kp|intros ?]. apply po_exit. exact Hf. Qed.

(** ** Deposits *)
Lemma orderly_new s v b : v_activation_epoch v = FAR_FUTURE_EPOCH -> v_exit_epoch v = FAR_FUTURE_EPOCH -> orderly s (set_balances b (set_validators (validators s ++ [v]) s)).
Proof.
  intros Ha Hx. split.
  - unfold churn_limit. f_equal. f_equal. unfold active_set. rewrite !indices_where_len. change (epoch_of E (set_balances b (set_validators (validators s ++ [v]) s))) with (epoch_of E s). gs.
    rewrite filter_app, lenN_app. cbn [filter]. unfold active_at at 2. rewrite Ha, Hx. destruct (N.leb_spec FAR_FUTURE_EPOCH (epoch_of E s)); cbn [andb]; [|change (lenN (@nil Validator)) with 0; lia].
    destruct (N.ltb_spec (epoch_of E s) FAR_FUTURE_EPOCH); [lia|]. change (lenN (@nil Validator)) with 0. lia.
  - intros e He. unfold exits_at. gs. rewrite filter_app, lenN_app. cbn [filter]. rewrite Hx. destruct (N.eqb_spec FAR_FUTURE_EPOCH e); [congruence|]. change (lenN (@nil Validator)) with 0. lia.
Qed.
Lemma po_deposit f d : f <> Electra -> pO (process_deposit E f d).
Proof.
  intros Hf. unfold process_deposit. apply po_bind; [apply po_keeps; kp|intros ?]. apply po_bind; [apply po_keeps; kp|intros ?]. apply po_bind; [apply po_keeps; kp|intros ?]. cbv zeta.
  assert (He : forall pk wc a sg, apply_deposit E f pk wc a sg = apply_deposit_phase0 E f pk wc a sg) by (intros; destruct f; try reflexivity; contradiction). rewrite He. unfold apply_deposit_phase0.
  apply po_bind; [apply po_keeps; kp|intros [i|]]; [apply po_keeps, ks_inc|]. apply po_bind; [apply po_keeps; kp|intros ?]. apply po_bind; [apply po_keeps; kp|intros [|]]; [apply po_keeps; kp|].
  set (dd := dep_data d).
  assert (Hr : add_validator_to_registry E f (dd_public_key dd) (dd_withdrawal_credentials dd) (dd_amount dd) =
    (let* v := lift (get_validator_from_deposit E (dd_public_key dd) (dd_withdrawal_credentials dd) (dd_amount dd)) in
     md (fun s => set_balances (balances s ++ [dd_amount dd]) (set_validators (validators s ++ [v]) s)) ;;
     swhen (fork_le Altair f)
      (md (fun s => set_inactivity_scores (inactivity_scores s ++ [0])
             (set_current_epoch_participation (current_epoch_participation s ++ [0])
             (set_previous_epoch_participation (previous_epoch_participation s ++ [0]) s)))))) by (destruct f; try reflexivity; contradiction).
  rewrite Hr. clear Hr He. intros s. unfold sbind at 1, lift at 1. destruct (get_validator_from_deposit E _ _ _) as [v| | |] eqn:Hv; try apply orderly_refl.
  assert (Hn : v_activation_epoch v = FAR_FUTURE_EPOCH /\ v_exit_epoch v = FAR_FUTURE_EPOCH) by (unfold get_validator_from_deposit in Hv; rinv Hv; subst v; split; reflexivity).
  unfold sbind at 1, md at 1. eapply orderly_trans; [apply (orderly_new s v (balances s ++ [dd_amount dd]) (proj1 Hn) (proj2 Hn))|]. apply orderly_spans.
  match goal with |- spans (snd (?m ?t)) = spans ?t => generalize t; change (kS m) end. kp.
Qed.
Lemma po_ops f b : f <> Electra -> pO (process_operations E f b).
Proof.
  intros Hf. assert (Hne : fork_le Electra f = false) by (destruct f; try reflexivity; contradiction). unfold process_operations. rewrite Hne.
  apply po_bind; [apply po_keeps; apply keeps_rd|intros ?]. 
  apply po_bind; [apply pres_for; [exact orderly_refl|exact orderly_trans|]; intros ?; apply po_pslash; exact Hf|intros ?].
  apply po_bind; [apply pres_for; [exact orderly_refl|exact orderly_trans|]; intros ?; apply po_aslash; exact Hf|intros ?].
  apply po_bind; [apply pres_for; [exact orderly_refl|exact orderly_trans|]; intros ?; apply po_keeps, ks_att|intros ?].
  apply po_bind; [apply pres_for; [exact orderly_refl|exact orderly_trans|]; intros ?; apply po_deposit; exact Hf|intros ?].
  apply po_bind; [apply pres_for; [exact orderly_refl|exact orderly_trans|]; intros ?; apply po_ve; exact Hf|intros ?].
  apply po_bind; [apply po_keeps, keeps_when, keeps_for; intros ?; apply ks_bls|intros ?]. apply pres_ret. exact orderly_refl.
Qed.
Lemma po_block f b : f <> Electra -> pO (process_block E f b).
Proof.
  intros Hf. unfold process_block. cbv zeta. apply po_bind; [apply po_keeps, ks_header|intros ?].
  apply po_bind.
  { apply po_keeps. destruct f; try (apply keeps_ret); try (apply keeps_bind; [apply ks_withdrawals|intros ?; apply ks_payload]). apply keeps_bind; [apply keeps_rd|intros ?; apply keeps_when, ks_payload]. }
  intros ?. apply po_bind; [apply po_keeps, ks_randao|intros ?]. apply po_bind; [apply po_keeps, ks_eth1|intros ?]. apply po_bind; [apply po_ops; exact Hf|intros ?]. apply po_keeps, keeps_when, ks_sync.
Qed.

(** ** Epochs *)
Lemma ks_justify f : kS (process_justification_and_finalization E f).
Proof. unfold process_justification_and_finalization, weigh_justification_and_finalization, justify, finalize_if. ks. Qed.
Lemma ks_inact : kS (process_inactivity_updates E). Proof. unfold process_inactivity_updates, inactivity_update_step. ks. Qed.
Lemma ks_rewards f : kS (process_rewards_and_penalties E f). Proof. unfold process_rewards_and_penalties, apply_deltas. ks. Qed.
Lemma ks_slashings f : kS (process_slashings E f). Proof. unfold process_slashings, slashings_step. ks. Qed.
Lemma ks_eth1r : kS (process_eth1_data_reset E). Proof. unfold process_eth1_data_reset. ks. Qed.
Lemma ks_eff f : kS (process_effective_balance_updates E f). Proof. unfold process_effective_balance_updates, effective_balance_step. ks. Qed.
Lemma ks_slashr : kS (process_slashings_reset E). Proof. unfold process_slashings_reset. ks. Qed.
Lemma ks_randaor : kS (process_randao_mixes_reset E). Proof. unfold process_randao_mixes_reset. ks. Qed.
Lemma ks_hist f : kS (process_historical_update E f). Proof. unfold process_historical_update. ks. Qed.
Lemma ks_part f : kS (match f with Phase0 => process_participation_record_updates | _ => process_participation_flag_updates ;; process_sync_committee_updates E end).
Proof. unfold process_participation_record_updates, process_participation_flag_updates, process_sync_committee_updates. ks. Qed.
Lemma ks_slot f : kS (process_slot E f). Proof. unfold process_slot. ks. Qed.
Lemma po_registry_step f c i : f <> Electra -> pO (registry_step E f c i).
Proof.
  intros Hf. unfold registry_step. apply po_bind; [apply po_keeps; ks|intros v]. apply po_bind; [apply po_keeps; ks|intros ?]. apply po_bind; [apply po_keeps; ks|intros v'].
  apply pres_when; [exact orderly_refl|]. apply po_exit. exact Hf.
Qed.
Definition exit_column (s : BeaconState) := (slot s, map v_exit_epoch (validators s)).
Lemma kx_activate i a : CrashProofs.keeps exit_column (mod_validator i (set_v_activation_epoch a)).
Proof.
  intros s. unfold mod_validator, sbind, rd, md, idx. destruct (nthN (validators s) i) as [v|] eqn:Hv; cbn [snd]; [|reflexivity].
  exact (f_equal (pair (slot s)) (map_updN_same v_exit_epoch _ _ _ (set_v_activation_epoch a v) Hv eq_refl)).
Qed.
Lemma exits_column s t e : exit_column t = exit_column s -> exits_at t e = exits_at s e.
Proof.
  intros H. unfold exits_at. rewrite (count_map v_exit_epoch (fun x => x =? e) (validators t)), (count_map v_exit_epoch (fun x => x =? e) (validators s)).
  apply (f_equal snd) in H. unfold exit_column, snd in H. rewrite H. reflexivity.
Qed.
Lemma same_epoch_of s t : slot t = slot s -> epoch_of E t = epoch_of E s. Proof. intros H. unfold epoch_of. rewrite H. reflexivity. Qed.
Lemma orderly_registry f s t : f <> Electra -> process_registry_updates E f s = (Ok tt, t) -> orderly s t.
Proof.
  intros Hf H. pose proof (evp_registry E f false s) as L. rewrite H in L. cbn [snd] in L. apply evo_all_of in L. apply (looks_evo E Hk) in L.
  assert (Hs : CrashProofs.keeps slot (process_registry_updates E f)) by (unfold process_registry_updates, registry_step, initiate_exit, initiate_validator_exit, initiate_validator_exit_electra, compute_exit_epoch_and_update_churn, mod_validator; kp).
  specialize (Hs s). rewrite H in Hs. cbn [snd] in Hs.
  unfold process_registry_updates in H. apply sbind_ok_inv in H as (c & s0 & H0 & H). apply inv_rd in H0 as [H0 ->]. rewrite (current_epoch_ok E Hc) in H0. injection H0 as <-.
  apply sbind_ok_inv in H as (n & s0 & H0 & H). apply inv_rd in H0 as [H0 ->]. apply sbind_ok_inv in H as ([] & m & H1 & H).
  assert (P : pO (sfor (rangeN n) (registry_step E f (epoch_of E s)))) by (apply pres_for; [exact orderly_refl|exact orderly_trans|]; intros ?; apply po_registry_step; exact Hf).
  specialize (P s). rewrite H1 in P. cbn [snd] in P.
  assert (H' : (let* queue := rd (fun s => Ok (activation_queue s)) in let* ae := lift (compute_activation_exit_epoch E (epoch_of E s)) in
    let* limit := rd (activation_limit E f) in sfor (firstN limit queue) (fun i => mod_validator i (set_v_activation_epoch ae))) m = (Ok tt, t)) by (destruct f; try exact H; contradiction).
  clear H. apply sbind_ok_inv in H' as (qu & s0 & H2 & H). apply inv_rd in H2 as [_ ->]. apply sbind_ok_inv in H as (ae & s0 & H2 & H). apply inv_lift in H2 as [H2 ->].
  apply sbind_ok_inv in H as (li & s0 & H3 & H). apply inv_rd in H3 as [_ ->].
  assert (X : exit_column t = exit_column m).
  { assert (K : CrashProofs.keeps exit_column (sfor (firstN li qu) (fun i => mod_validator i (set_v_activation_epoch ae)))) by (apply keeps_for; intros ?; apply kx_activate). specialize (K m). rewrite H in K. exact K. }
  assert (Hfar : epoch_of E s < FAR_FUTURE_EPOCH).
  { unfold compute_activation_exit_epoch in H2. apply rbind_ok_inv in H2 as (a1 & A1 & _). unfold add in A1. rewrite Hk in A1. unfold uadd in A1. destruct (N.ltb_spec (epoch_of E s + 1) U64) as [B|B]; [|discriminate].
    rewrite U64_val in B. unfold FAR_FUTURE_EPOCH, U64_MAX. pows. lia. }
  split.
  - unfold churn_limit. f_equal. f_equal. rewrite (same_epoch_of s t Hs). rewrite (lk_active E s t L); [reflexivity|lia|exact Hfar].
  - intros e He. rewrite (exits_column m t e X). apply P. exact He.
Qed.
Lemma orderly_epoch f s t : f <> Electra -> process_epoch E f s = (Ok tt, t) -> orderly s t.
Proof.
  intros Hf H. unfold process_epoch in H. assert (Hne : fork_le Electra f = false) by (destruct f; try reflexivity; contradiction). rewrite Hne in H.
  assert (G : forall a b (m : St BeaconState unit), kS m -> m a = (Ok tt, b) -> orderly a b) by (intros a b m P Q; pose proof (P a) as X; rewrite Q in X; apply orderly_spans; exact X).
  apply sbind_ok_inv in H as ([] & s1 & H1 & H). apply G in H1; [|apply ks_justify]. apply sbind_ok_inv in H as ([] & s2 & H2 & H). apply G in H2; [|apply keeps_when; apply ks_inact].
  apply sbind_ok_inv in H as ([] & s3 & H3 & H). apply G in H3; [|apply ks_rewards]. apply sbind_ok_inv in H as ([] & s4 & H4 & H). apply orderly_registry in H4; [|exact Hf].
  apply sbind_ok_inv in H as ([] & s5 & H5 & H). apply G in H5; [|apply ks_slashings]. apply sbind_ok_inv in H as ([] & s6 & H6 & H). apply G in H6; [|apply ks_eth1r].
  apply sbind_ok_inv in H as ([] & s7 & H7 & H). apply G in H7; [|apply keeps_ret].
  apply sbind_ok_inv in H as ([] & s8 & H8 & H). apply G in H8; [|apply ks_eff]. apply sbind_ok_inv in H as ([] & s9 & H9 & H). apply G in H9; [|apply ks_slashr].
  apply sbind_ok_inv in H as ([] & u & H10 & H). apply G in H10; [|apply ks_randaor]. apply sbind_ok_inv in H as ([] & s11 & H11 & H). apply G in H11; [|apply ks_hist]. apply G in H; [|apply ks_part].
  exact (orderly_trans _ _ _ H1 (orderly_trans _ _ _ H2 (orderly_trans _ _ _ H3 (orderly_trans _ _ _ H4 (orderly_trans _ _ _ H5 (orderly_trans _ _ _ H6 (orderly_trans _ _ _ H7
    (orderly_trans _ _ _ H8 (orderly_trans _ _ _ H9 (orderly_trans _ _ _ H10 (orderly_trans _ _ _ H11 H))))))))))).
Qed.
(** a slot: the exits scheduled afterwards are within the limit of the state before *)
Lemma orderly_slot f s t : f <> Electra -> slot s + 1 < 2 ^ 64 -> process_slots E f (slot s + 1) s = (Ok tt, t) ->
  forall e, e <> FAR_FUTURE_EPOCH -> exits_at t e <= N.max (exits_at s e) (churn_limit E s).
Proof.
  intros Hf Hb H. assert (Hb' : slot s + 1 < U64) by (rewrite U64_val; pows; lia).
  assert (Ha : advance_slot E f s = (Ok tt, t)).
  { rewrite process_slots_loop in H by lia. replace (N.to_nat (slot s + 1 - slot s)) with 1%nat in H by lia.
    rewrite loop_step in H by lia. apply sbind_ok_inv in H as ([] & m & H1 & H). rewrite loop_done in H; [injection H as <-; exact H1|].
    destruct (advance_inv E Hc f s m Hb' H1) as (s1 & s2 & _ & _ & _ & S2 & ->). gs. lia. }
  destruct (advance_inv E Hc f s t Hb' Ha) as (s1 & s2 & A1 & A2 & A3 & A4 & ->).
  assert (P : orderly s s1) by (pose proof (ks_slot f s) as P; rewrite A1 in P; apply orderly_spans; exact P).
  assert (Q : orderly s s2) by (destruct ((slot s + 1) mod SLOTS_PER_EPOCH E =? 0); [apply (orderly_trans _ _ _ P), (orderly_epoch f); assumption|subst s2; exact P]).
  intros e He. exact (proj2 Q e He).
Qed.
End R.
Lemma upgrade_validators (E : Env) f g s t : chain_call E (f, s) (g, t) -> f <> g -> g <> Electra -> validators t = validators s.
Proof.
  intros H Hne Hg. inversion H; subst; try congruence.
  - match goal with H : upgrade_to_altair E s = Ok t |- _ => rename H into Hu end. unfold upgrade_to_altair in Hu. rinv Hu. subst t.
    match goal with H : translate_participation _ _ _ = Ok _ |- _ => unfold translate_participation in H; rinv H; subst end. unfold altair_base. gs. reflexivity.
  - match goal with H : upgrade_to_bellatrix E s = Ok t |- _ => unfold upgrade_to_bellatrix in H; rinv H; subst end. reflexivity.
  - match goal with H : upgrade_to_capella E s = Ok t |- _ => unfold upgrade_to_capella in H; rinv H; subst end. reflexivity.
  - match goal with H : upgrade_to_deneb E s = Ok t |- _ => unfold upgrade_to_deneb in H; rinv H; subst end. reflexivity.
Qed.
Lemma churn_runs (E : Env) p0 z w K : ctx_sane E -> chk E = true -> calm E p0 (z :: w) ->
  (forall g s, In (g, s) (z :: w) -> g <> Electra /\ churn_limit E s <= K) ->
  forall e, e <> FAR_FUTURE_EPOCH -> exits_at (snd z) e <= N.max (exits_at (snd p0) e) K.
Proof.
  intros Hc Hk H. remember (z :: w) as zw eqn:Ez. revert z w Ez.
  induction H as [|f s t w H IH Hb Hs|f b s r t w H IH Hp Hr|f g s t w H IH Hu Hne]; intros z w' Ez Hall e He; injection Ez as <- <-; cbn [fst snd] in *.
  - lia.
  - assert (I : exits_at s e <= N.max (exits_at (snd p0) e) K) by (apply (IH _ _ eq_refl); [intros g u Hg; apply Hall; right; exact Hg|exact He]).
    destruct (Hall f s) as [Hf HK]; [right; left; reflexivity|]. pose proof (orderly_slot E Hc Hk f s t Hf Hb Hs e He). lia.
  - assert (I : exits_at s e <= N.max (exits_at (snd p0) e) K) by (apply (IH _ _ eq_refl); [intros g u Hg; apply Hall; right; exact Hg|exact He]).
    destruct (Hall f s) as [Hf HK]; [right; left; reflexivity|]. pose proof (po_block E Hc Hk f b Hf s) as P. rewrite Hp in P. destruct P as [_ P]. specialize (P e He). cbn [snd] in P. lia.
  - assert (I : exits_at s e <= N.max (exits_at (snd p0) e) K) by (apply (IH _ _ eq_refl); [intros g' u Hg; apply Hall; right; exact Hg|exact He]).
    destruct (Hall g t) as [Hg _]; [left; reflexivity|]. unfold exits_at at 1. rewrite (upgrade_validators E f g s t Hu Hne Hg). exact I.
Qed.
