(** * The execution chain and the randomness along a chain of calls (proof file; no model definitions) *)
From Verif Require Import Base BaseLemmas Types Ctx Env Helpers HelpersAltair HelpersElectra Block Epoch Transition Upgrade StLemmas
  SpecCommon SpecShuffle SpecHelpers SpecElectra SpecOps SpecBlock SpecEpoch SpecFlow SpecAtt SpecQueues SpecFinality SpecSafety SpecAuthority SpecPayload
  Frame HelperProofs HelperProofs2 OpsProofs BlockProofs SlotProofs SafetyProofs AuthorityProofs.

(** ** What no operation rewrites *)
Record ek (s t : BeaconState) : Prop := mkEk {
  ek_h : latest_execution_payload_header t = latest_execution_payload_header s; ek_b : latest_block_header t = latest_block_header s;
  ek_s : slot t = slot s; ek_g : genesis_time t = genesis_time s; ek_r : randao_mixes t = randao_mixes s;
  ek_v : genesis_validators_root t = genesis_validators_root s; ek_f : fork t = fork s }.
Lemma ek_refl s : ek s s. Proof. constructor; reflexivity. Qed.
Lemma ek_trans a b c : ek a b -> ek b c -> ek a c. Proof. intros [A1 A2 A3 A4 A5 A6 A7] [B1 B2 B3 B4 B5 B6 B7]; constructor; congruence. Qed.
Create HintDb ekdb.
Ltac ek1 :=
  match goal with
  | |- forall _, _ => intro
  | |- pres ek (sbind _ _) => apply (pres_bind ek ek_trans)
  | |- pres ek (rd _) => apply (pres_rd ek ek_refl)
  | |- pres ek (lift _) => apply (pres_lift ek ek_refl)
  | |- pres ek (sret _) => apply (pres_ret ek ek_refl)
  | |- pres ek (swhen _ _) => apply (pres_when ek ek_refl)
  | |- pres ek (sfor _ _) => apply (pres_for ek ek_refl ek_trans)
  | |- pres ek (sfold _ _ _) => apply (pres_fold ek ek_refl ek_trans)
  | |- pres ek (match ?x with _ => _ end) => destruct x
  | |- pres ek (md _) => apply pres_md; intro; (constructor; reflexivity)
  | |- pres ek (md _) => apply pres_md; intro; cbv beta; match goal with |- ek _ (if ?c then _ else _) => destruct c; constructor; reflexivity end
  | |- pres ek _ => solve [eauto with ekdb]
  end.
Ltac ekt := repeat ek1.
Section Hk.
Variables (E : Env) (f : Fork).
Lemma ek_inc i d : pres ek (increase_balance E i d). Proof. unfold increase_balance. ekt. Qed.
Lemma ek_dec i d : pres ek (decrease_balance E i d). Proof. unfold decrease_balance. ekt. Qed.
Lemma ek_mod i g : pres ek (mod_validator i g). Proof. unfold mod_validator. ekt. Qed.
Hint Resolve ek_inc ek_dec ek_mod : ekdb.
Lemma ek_churn b : pres ek (compute_exit_epoch_and_update_churn E b). Proof. unfold compute_exit_epoch_and_update_churn. ekt. Qed.
Lemma ek_cchurn b : pres ek (compute_consolidation_epoch_and_update_churn E b). Proof. unfold compute_consolidation_epoch_and_update_churn. ekt. Qed.
Hint Resolve ek_churn ek_cchurn : ekdb.
Lemma ek_exit0 i : pres ek (initiate_validator_exit E i). Proof. unfold initiate_validator_exit. ekt. Qed.
Lemma ek_exit1 i : pres ek (initiate_validator_exit_electra E i). Proof. unfold initiate_validator_exit_electra. ekt. Qed.
Hint Resolve ek_exit0 ek_exit1 : ekdb.
Lemma ek_exit i : pres ek (initiate_exit E f i). Proof. unfold initiate_exit. ekt. Qed.
Hint Resolve ek_exit : ekdb.
Lemma ek_slash i w : pres ek (slash_validator E f i w). Proof. unfold slash_validator. ekt. Qed.
Hint Resolve ek_slash : ekdb.
Lemma ek_pslash op : pres ek (process_proposer_slashing E f op). Proof. unfold process_proposer_slashing. ekt. Qed.
Lemma ek_aslash op : pres ek (process_attester_slashing E f op). Proof. unfold process_attester_slashing. ekt. Qed.
Lemma ek_flag c fl i n fw : pres ek (attestation_flag_step E c fl i n fw).
Proof. unfold attestation_flag_step. ekt; apply pres_md; intro; destruct c; constructor; reflexivity. Qed.
Hint Resolve ek_flag : ekdb.
Lemma ek_att a : pres ek (process_attestation E f a).
Proof. unfold process_attestation, process_attestation_phase0, process_attestation_altair. ekt. Qed.
Lemma ek_add pk wc a : forall g, pres ek (add_validator_to_registry E g pk wc a). Proof. intros g. unfold add_validator_to_registry. ekt. Qed.
Lemma ek_excess i : pres ek (queue_excess_active_balance E i). Proof. unfold queue_excess_active_balance. ekt. Qed.
Hint Resolve ek_add ek_excess : ekdb.
Lemma ek_switch i : pres ek (switch_to_compounding_validator E i). Proof. unfold switch_to_compounding_validator. ekt. Qed.
Hint Resolve ek_switch : ekdb.
Lemma ek_apply pk wc a sg : pres ek (apply_deposit E f pk wc a sg).
Proof. unfold apply_deposit, apply_deposit_phase0, apply_deposit_electra. ekt. Qed.
Lemma ek_apply_el pk wc a sg : pres ek (apply_deposit_electra E pk wc a sg).
Proof. unfold apply_deposit_electra. ekt. Qed.
Hint Resolve ek_apply ek_apply_el : ekdb.
Lemma ek_deposit d : pres ek (process_deposit E f d). Proof. unfold process_deposit. ekt. Qed.
Lemma ek_receipt d : pres ek (process_deposit_receipt E d). Proof. unfold process_deposit_receipt. ekt. Qed.
Lemma ek_vexit op : pres ek (process_voluntary_exit E f op). Proof. unfold process_voluntary_exit. ekt. Qed.
Lemma ek_eth1 b : pres ek (process_eth1_data E b). Proof. unfold process_eth1_data. ekt. Qed.
Lemma ek_sync sa : pres ek (process_sync_aggregate E sa). Proof. unfold process_sync_aggregate, sync_step. ekt. Qed.
Lemma ek_wd p : pres ek (process_withdrawals E f p). Proof. unfold process_withdrawals. ekt. Qed.
Lemma ek_bls op : pres ek (process_bls_to_execution_change E op). Proof. unfold process_bls_to_execution_change. ekt. Qed.
Lemma ek_wr op : pres ek (process_execution_layer_withdrawal_request E op). Proof. unfold process_execution_layer_withdrawal_request. ekt. Qed.
Lemma ek_cons op : pres ek (process_consolidation E op). Proof. unfold process_consolidation. ekt. Qed.
Hint Resolve ek_pslash ek_aslash ek_att ek_deposit ek_receipt ek_vexit ek_eth1 ek_sync ek_wd ek_bls ek_wr ek_cons : ekdb.
Lemma ek_ops b : pres ek (process_operations E f b). Proof. unfold process_operations. ekt. Qed.
End Hk.
Global Hint Resolve ek_ops ek_eth1 ek_sync ek_wd : ekdb.
Section Exec.
Variables (E : Env) (f : Fork) (b : BeaconBlock).
Hypothesis Hc : ctx_sane E.
Hypothesis Hh : hash_wf (hash E).
Hypothesis Hk : chk E = true.
Notation body := (bk_body b).

(** ** The header *)
Lemma header_does s : let (r, t) := process_block_header E f b s in
  (t = s /\ forall x, r <> Ok x)
  \/ (bh_slot (latest_block_header s) < slot s /\ get_beacon_proposer_index E s = Ok (bk_proposer_index b)
      /\ exists hdr, t = set_latest_block_header hdr s /\ bh_slot hdr = slot s /\ bh_parent_root hdr = bk_parent_root b).
Proof.
  destruct (process_block_header E f b s) as [r t] eqn:H. unfold process_block_header in H. unfold sbind at 1, rd at 1 in H. cbv beta in H.
  match type of H with context [match ?m with Ok _ => _ | Err _ => _ | Panic => _ | Diverge => _ end] => destruct m as [hdr| | |] eqn:Hm end;
    [|injection H as <- <-; left; split; [reflexivity|discriminate]..].
  right. rinv Hm. apply N.eqb_eq in Hm0, Hm3. apply N.ltb_lt in Hm1.
  split; [lia|]. split; [congruence|]. exists hdr. subst hdr. unfold sbind, md, rd in H. cbv beta in H. injection H as _ <-. split; [reflexivity|]. cbn [bh_slot bh_parent_root]. auto.
Qed.

(** ** Withdrawals and payload *)
Definition payload_part : St BeaconState unit :=
  match f with
  | Phase0 | Altair => sret tt
  | Bellatrix => let* en := rd (fun s => Ok (is_execution_enabled E s body)) in swhen en (process_execution_payload E f body)
  | _ => process_withdrawals E f (bb_execution_payload body) ;; process_execution_payload E f body
  end.
Definition paid (w t : BeaconState) : Prop :=
  fork_le Bellatrix f = true /\ payload_checks E f body w = Ok tt
  /\ exists h, header_of_payload E f (bb_execution_payload body) h /\ t = set_latest_execution_payload_header h w.
Lemma payload_does s : snd (process_execution_payload E f body s) = s \/ (fork_le Bellatrix f = true -> paid s (snd (process_execution_payload E f body s))).
Proof.
  unfold process_execution_payload, sbind, rd, lift, md. destruct (payload_checks E f body s) as [[]| | |] eqn:H; try (left; reflexivity).
  destruct (payload_to_header E f (bb_execution_payload body)) as [h| | |] eqn:H1; try (left; reflexivity). right. intros Hf. split; [exact Hf|]. split; [exact H|]. exists h. split; [apply (payload_header_iff E); exact H1|reflexivity].
Qed.
Lemma part_does s : exists w, ek s w /\ validators w = validators s /\ (snd (payload_part s) = w \/ paid w (snd (payload_part s))).
Proof.
  assert (W : forall s, ek s (snd (process_withdrawals E f (bb_execution_payload body) s)) /\ validators (snd (process_withdrawals E f (bb_execution_payload body) s)) = validators s).
  { intros u. split; [apply ek_wd|]. apply qt_v. revert u. change (pres quiet (process_withdrawals E f (bb_execution_payload body))). unfold process_withdrawals. qt. }
  assert (G : fork_le Bellatrix f = true -> exists w, ek s w /\ validators w = validators s
    /\ (snd ((process_withdrawals E f (bb_execution_payload body) ;; process_execution_payload E f body) s) = w \/ paid w (snd ((process_withdrawals E f (bb_execution_payload body) ;; process_execution_payload E f body) s)))).
  { intros Hf. destruct (W s) as [W1 W2]. exists (snd (process_withdrawals E f (bb_execution_payload body) s)). split; [exact W1|]. split; [exact W2|]. unfold sbind.
    destruct (process_withdrawals E f (bb_execution_payload body) s) as [[[]| | |] w]; cbn [snd]; auto. destruct (payload_does w) as [P|P]; auto. }
  unfold payload_part. destruct f eqn:Ef; try (apply G; reflexivity).
  - exists s. split; [apply ek_refl|]. auto.
  - exists s. split; [apply ek_refl|]. auto.
  - exists s. split; [apply ek_refl|]. split; [reflexivity|]. unfold sbind, rd, swhen. destruct (is_execution_enabled E s body); [|auto]. destruct (payload_does s) as [P|P]; rewrite Ef in P; auto.
Qed.
(** ** RANDAO *)
Definition mixes_in (s t : BeaconState) : Prop :=
  exists p v mix, get_beacon_proposer_index E s = Ok p /\ nthN (validators s) p = Some v /\ nthN (randao_mixes s) (mix_position E s) = Some mix
    /\ signed_by E s [2; 0; 0; 0] (epoch_of E s) (OU64 (epoch_of E s)) (v_public_key v) (bb_randao_reveal body)
    /\ t = set_randao_mixes (updN (randao_mixes s) (mix_position E s) (xorB mix (hash E (bb_randao_reveal body)))) s.
Lemma randao_does s : snd (process_randao E body s) = s \/ mixes_in s (snd (process_randao E body s)).
Proof.
  destruct (process_randao E body s) as [r0 t] eqn:H0. cbn [snd]. unfold process_randao in H0. unfold sbind at 1, rd at 1 in H0. cbv beta in H0.
  match type of H0 with context [match ?m with Ok _ => _ | Err _ => _ | Panic => _ | Diverge => _ end] => destruct m as [r| | |] eqn:H end; [|injection H0 as _ <-; left; reflexivity..].
  unfold md in H0. injection H0 as _ <-.
  right. apply rbind_ok_inv in H as (p & Hp & H). apply rbind_ok_inv in H as (v & Hv & H). apply idx_ok in Hv. rewrite (current_epoch_ok E Hc) in H. cbn [rbind] in H.
  apply rbind_ok_inv in H as (d & Hd & H). apply rbind_ok_inv in H as ([] & Hs & H). apply rbind_ok_inv in H as (mix & Hm & H). apply rbind_ok_inv in H as (i & Hi & H).
  apply Ok_inj in H. subst r. apply map_err_ok in Hs. unfold get_randao_mix in Hm. rewrite Hi in Hm. cbn [rbind] in Hm. apply idx_ok in Hm.
  assert (i = mix_position E s). { unfold umod in Hi. destruct (EPOCHS_PER_HISTORICAL_VECTOR E =? 0); [discriminate|]. apply Ok_inj in Hi. subst i. reflexivity. } subst i.
  exists p, v, mix. split; [exact Hp|]. split; [exact Hv|]. split; [exact Hm|]. split; [apply (signed_by_iff E s DRandao); eauto|]. reflexivity.
Qed.
Definition block_tail : St BeaconState unit := process_eth1_data E body ;; process_operations E f body ;; swhen (fork_le Altair f) (process_sync_aggregate E (bb_sync_aggregate body)).
Lemma tail_does : pres ek block_tail.
Proof. unfold block_tail. ekt. Qed.

(** ** The whole block *)
Lemma block_stages s : let t := snd (process_block E f b s) in
  t = s
  \/ (bh_slot (latest_block_header s) < slot s /\ get_beacon_proposer_index E s = Ok (bk_proposer_index b)
      /\ exists hdr w u v, bh_slot hdr = slot s /\ bh_parent_root hdr = bk_parent_root b
           /\ ek (set_latest_block_header hdr s) w /\ validators w = validators s
           /\ (u = w \/ paid w u) /\ (v = u \/ mixes_in u v) /\ ek v t).
Proof.
  intros t. assert (Et : t = snd (process_block E f b s)) by reflexivity. clearbody t. unfold process_block in Et. fold payload_part in Et. fold block_tail in Et.
  pose proof (header_does s) as H. unfold sbind at 1 in Et. destruct (process_block_header E f b s) as [r s1].
  destruct H as [[-> Hr]|(H1 & H2 & hdr & -> & H3 & H4)]; [left; destruct r as [x| | |]; [destruct (Hr x eq_refl)|exact Et..]|right]. rewrite Et. clear Et t.
  split; [exact H1|]. split; [exact H2|]. exists hdr. set (s1 := set_latest_block_header hdr s). assert (V1 : validators s1 = validators s) by reflexivity. clearbody s1.
  assert (F : exists w u v, ek s1 w /\ validators w = validators s /\ (u = w \/ paid w u) /\ (v = u \/ mixes_in u v) /\ ek v s1).
  { exists s1, s1, s1. split; [apply ek_refl|]. split; [exact V1|]. split; [auto|]. split; [auto|apply ek_refl]. }
  enough (G : exists w u v, ek s1 w /\ validators w = validators s /\ (u = w \/ paid w u) /\ (v = u \/ mixes_in u v)
    /\ ek v (snd (match r with Ok a => (payload_part ;; process_randao E body ;; block_tail) s1 | Err e => (Err e, s1) | Panic => (Panic, s1) | Diverge => (Diverge, s1) end))).
  { destruct G as (w & u & v & G). exists w, u, v. destruct G as (G1 & G2 & G3 & G4 & G5). auto 10. }
  destruct r as [[]| | |]; cbn [snd]; try exact F. clear F. destruct (part_does s1) as (w & W1 & W2 & W3). exists w. rewrite V1 in W2. unfold sbind at 1. destruct (payload_part s1) as [r u]. cbn [snd] in W3. exists u.
  assert (F : exists v, ek s1 w /\ validators w = validators s /\ (u = w \/ paid w u) /\ (v = u \/ mixes_in u v) /\ ek v u) by (exists u; auto 10 using ek_refl).
  destruct r as [[]| | |]; cbn [snd]; try exact F. clear F. unfold sbind at 1. pose proof (randao_does u) as R. destruct (process_randao E body u) as [r v]. cbn [snd] in R. exists v.
  split; [exact W1|]. split; [exact W2|]. split; [exact W3|]. split; [exact R|]. destruct r as [[]| | |]; cbn [snd]; try apply ek_refl. apply tail_does.
Qed.
End Exec.

(** ** What a block does to the head of the execution chain and to the randomness *)
Lemma same_proposer (E : Env) s u : ctx_sane E -> slot u = slot s -> randao_mixes u = randao_mixes s -> validators u = validators s -> get_beacon_proposer_index E u = get_beacon_proposer_index E s.
Proof.
  intros Hc H1 H2 H3. apply proposer_ext; [exact Hc|]. split; [exact H1|]. split; [exact H2|]. rewrite H3. generalize (validators s). intros l. induction l; constructor; auto.
Qed.
Lemma checks_extend (E : Env) f b s w hdr : ctx_sane E -> hash_wf (hash E) -> chk E = true -> fork_le Bellatrix f = true -> bh_slot (latest_block_header s) < slot s -> bh_parent_root hdr = bk_parent_root b ->
  ek (set_latest_block_header hdr s) w -> payload_checks E f (bk_body b) w = Ok tt -> extends E f s b.
Proof.
  intros Hc Hh Hk Hf Hs Hr [E1 E2 E3 E4 E5 E6 E7] H. revert E1 E2 E3 E4 E5. gs. intros E1 E2 E3 E4 E5. unfold payload_checks in H. rewrite (current_epoch_ok E Hc) in H. cbn [rbind] in H.
  apply rbind_ok_inv in H as ([] & P1 & H). apply require_ok in P1. apply rbind_ok_inv in H as (mix & Hm & H). apply rbind_ok_inv in H as ([] & P2 & H). apply require_ok in P2. apply bytes_eqb_true in P2.
  apply rbind_ok_inv in H as (tm & Ht & H). apply rbind_ok_inv in H as ([] & P3 & H). apply require_ok in P3. apply N.eqb_eq in P3. apply rbind_ok_inv in H as ([] & P4 & H). apply require_ok in H.
  split; [exact Hs|]. split.
  { unfold exec_head. rewrite <- E1. apply orb_true_iff in P1 as [P1|P1]; [right|left; apply bytes_eqb_true; exact P1]. apply andb_true_iff in P1 as [P0 P1]. apply negb_true_iff in P1.
    split; [destruct f; try reflexivity; try discriminate|apply (header_unset_iff E); exact P1]. }
  split. { unfold get_randao_mix, umod in Hm. destruct (EPOCHS_PER_HISTORICAL_VECTOR E =? 0); [discriminate|]. cbn [rbind] in Hm. apply idx_ok in Hm. rewrite <- E5, P2. unfold mix_position, epoch_of in *. rewrite E3 in Hm. exact Hm. }
  split. { unfold compute_timestamp_at_slot in Ht. apply rbind_ok_inv in Ht as (d & Hd & Ht). apply ok_or_ok in Hd. apply csub_some in Hd as [_ ->]. apply rbind_ok_inv in Ht as (m & Hmul & Ht).
    apply (mul_exact E Hk) in Hmul. apply (add_exact E _ _ _ Hk) in Ht. subst m. rewrite P3, Ht, E3, E4. unfold GENESIS_SLOT. rewrite N.sub_0_r. reflexivity. }
  apply (engine_iff E) in H; [|exact Hh]. destruct H as (hs & pr & H1 & H2 & H3). exists hs, pr. split; [intros D; destruct (H1 D) as [D1 D2]; split; [exact D1|]; rewrite D2, E2; exact Hr|]. split; [exact H2|exact H3].
Qed.
Lemma exec_block (E : Env) f b s : ctx_sane E -> hash_wf (hash E) -> chk E = true -> let t := snd (process_block E f b s) in
  slot t = slot s /\ genesis_time t = genesis_time s
  /\ (latest_execution_payload_header t = latest_execution_payload_header s
      \/ (fork_le Bellatrix f = true /\ extends E f s b /\ header_of_payload E f (bb_execution_payload (bk_body b)) (latest_execution_payload_header t) /\ bh_slot (latest_block_header t) = slot s))
  /\ (randao_mixes t = randao_mixes s
      \/ (reveals E s b /\ bh_slot (latest_block_header t) = slot s
          /\ exists mix, current_mix E s = Some mix /\ randao_mixes t = updN (randao_mixes s) (mix_position E s) (xorB mix (hash E (bb_randao_reveal (bk_body b))))))
  /\ (bh_slot (latest_block_header t) = bh_slot (latest_block_header s) \/ (bh_slot (latest_block_header s) < slot s /\ bh_slot (latest_block_header t) = slot s)).
Proof.
  intros Hc Hh Hk t. destruct (block_stages E f b Hc s) as [T|(H1 & H2 & hdr & w & u & v & H3 & H4 & W & V & U & R & T)]; fold t in T.
  { rewrite T. auto 10. }
  pose proof W as [W1 W2 W3 W4 W5 W6 W7]. revert W1 W2 W3 W4 W5 W6 W7. gs. intros W1 W2 W3 W4 W5 W6 W7. destruct T as [T1 T2 T3 T4 T5 T6 T7].
  assert (Ru : slot v = slot u /\ genesis_time v = genesis_time u /\ latest_block_header v = latest_block_header u /\ latest_execution_payload_header v = latest_execution_payload_header u).
  { destruct R as [->|(p & x & mix & _ & _ & _ & _ & ->)]; gs; auto. }
  assert (Uw : slot u = slot w /\ genesis_time u = genesis_time w /\ latest_block_header u = latest_block_header w /\ randao_mixes u = randao_mixes w /\ validators u = validators w
    /\ fork u = fork w /\ genesis_validators_root u = genesis_validators_root w).
  { destruct U as [->|(_ & _ & h & _ & ->)]; gs; auto 10. }
  destruct Ru as (R1 & R2 & R3 & R4), Uw as (U1 & U2 & U3 & U4 & U5 & U6 & U7).
  assert (B : bh_slot (latest_block_header t) = slot s) by (rewrite T2, R3, U3, W2; exact H3).
  split; [congruence|]. split; [congruence|]. split; [|split; [|right; auto]].
  - destruct U as [->|(Hf & Hp & h & Hx & ->)]; [left; congruence|right]. split; [exact Hf|]. split; [eapply checks_extend; eauto|]. split; [|exact B]. rewrite T1, R4. gs. exact Hx.
  - destruct R as [->|(p & x & mix & P1 & P2 & P3 & P4 & ->)]; [left; congruence|right].
    assert (Hp : p = bk_proposer_index b). { rewrite (same_proposer E s u Hc) in P1 by congruence. congruence. } subst p.
    assert (Me : mix_position E u = mix_position E s) by (unfold mix_position, epoch_of; do 2 f_equal; congruence).
    split; [|split; [exact B|]].
    + split; [exact H1|]. exists x. split; [exact H2|]. split; [congruence|]. unfold signed_by, version_at, epoch_of in *. rewrite U1, U6, U7, W3, W6, W7 in P4. exact P4.
    + exists mix. rewrite T5. revert P3. gs. unfold current_mix. rewrite Me, U4, W5. auto.
Qed.

(** ** Slots and epochs *)
Global Hint Resolve ek_inc ek_dec ek_mod ek_exit ek_switch ek_excess : ekdb.
Section Epoch.
Variables (E : Env) (f : Fork).
Lemma ek_justify : pres ek (process_justification_and_finalization E f).
Proof. unfold process_justification_and_finalization, weigh_justification_and_finalization, justify, finalize_if. ekt. Qed.
Lemma ek_inact : pres ek (process_inactivity_updates E). Proof. unfold process_inactivity_updates, inactivity_update_step. ekt. Qed.
Lemma ek_rewards : pres ek (process_rewards_and_penalties E f). Proof. unfold process_rewards_and_penalties, apply_deltas. ekt. Qed.
Lemma ek_registry : pres ek (process_registry_updates E f). Proof. unfold process_registry_updates, registry_step. ekt. Qed.
Lemma ek_slashings : pres ek (process_slashings E f). Proof. unfold process_slashings, slashings_step. ekt. Qed.
Lemma ek_eth1r : pres ek (process_eth1_data_reset E). Proof. unfold process_eth1_data_reset. ekt. Qed.
Lemma ek_deploop l : forall a p c, pres ek (pending_deposits_loop E l a p c).
Proof. induction l as [|d l IH]; intros a p c; cbn [pending_deposits_loop]; ekt. Qed.
Lemma ek_consloop l : forall n, pres ek (pending_consolidations_loop E l n).
Proof. induction l as [|d l IH]; intros n; cbn [pending_consolidations_loop]; ekt. Qed.
Hint Resolve ek_deploop ek_consloop : ekdb.
Lemma ek_deps : pres ek (process_pending_balance_deposits E). Proof. unfold process_pending_balance_deposits. ekt. Qed.
Lemma ek_conss : pres ek (process_pending_consolidations E). Proof. unfold process_pending_consolidations. ekt. Qed.
Lemma ek_eff : pres ek (process_effective_balance_updates E f). Proof. unfold process_effective_balance_updates, effective_balance_step. ekt. Qed.
Lemma ek_slr : pres ek (process_slashings_reset E). Proof. unfold process_slashings_reset. ekt. Qed.
Lemma ek_hist : pres ek (process_historical_update E f). Proof. unfold process_historical_update. ekt. Qed.
Lemma ek_part : pres ek (match f with Phase0 => process_participation_record_updates | _ => process_participation_flag_updates ;; process_sync_committee_updates E end).
Proof. unfold process_participation_record_updates, process_participation_flag_updates, process_sync_committee_updates. ekt. Qed.

(** everything but the randomness, which is carried over to the next epoch *)
Lemma exec_epoch s t : ctx_sane E -> chk E = true -> process_epoch E f s = (Ok tt, t) ->
  latest_execution_payload_header t = latest_execution_payload_header s /\ latest_block_header t = latest_block_header s /\ genesis_time t = genesis_time s /\ slot t = slot s
  /\ exists mix, current_mix E s = Some mix /\ randao_mixes t = updN (randao_mixes s) ((epoch_of E s + 1) mod EPOCHS_PER_HISTORICAL_VECTOR E) mix.
Proof.
  intros Hc Hk H. unfold process_epoch in H.
  assert (G : forall a b (m : St BeaconState unit), pres ek m -> m a = (Ok tt, b) -> ek a b) by (intros a b m P Q; pose proof (P a) as R; rewrite Q in R; exact R).
  apply sbind_ok_inv in H as ([] & s1 & H1 & H). apply G in H1; [|apply ek_justify]. apply sbind_ok_inv in H as ([] & s2 & H2 & H). apply G in H2; [|apply pres_when; [exact ek_refl|apply ek_inact]].
  apply sbind_ok_inv in H as ([] & s3 & H3 & H). apply G in H3; [|apply ek_rewards]. apply sbind_ok_inv in H as ([] & s4 & H4 & H). apply G in H4; [|apply ek_registry].
  apply sbind_ok_inv in H as ([] & s5 & H5 & H). apply G in H5; [|apply ek_slashings]. apply sbind_ok_inv in H as ([] & s6 & H6 & H). apply G in H6; [|apply ek_eth1r].
  apply sbind_ok_inv in H as ([] & s7 & H7 & H). apply G in H7; [|apply pres_when; [exact ek_refl|apply (pres_bind ek ek_trans); [apply ek_deps|intros _; apply ek_conss]]].
  apply sbind_ok_inv in H as ([] & s8 & H8 & H). apply G in H8; [|apply ek_eff]. apply sbind_ok_inv in H as ([] & s9 & H9 & H). apply G in H9; [|apply ek_slr].
  assert (K : ek s s9) by exact (ek_trans _ _ _ H1 (ek_trans _ _ _ H2 (ek_trans _ _ _ H3 (ek_trans _ _ _ H4 (ek_trans _ _ _ H5 (ek_trans _ _ _ H6 (ek_trans _ _ _ H7 (ek_trans _ _ _ H8 H9)))))))). clear H1 H2 H3 H4 H5 H6 H7 H8 H9.
  apply sbind_ok_inv in H as ([] & u & H1 & H). apply sbind_ok_inv in H as ([] & s11 & H2 & H). apply G in H2; [|apply ek_hist]. apply G in H; [|apply ek_part].
  pose proof (ek_trans _ _ _ H2 H) as [T1 T2 T3 T4 T5 T6 T7]. destruct K as [K1 K2 K3 K4 K5 K6 K7].
  unfold process_randao_mixes_reset in H1. apply sbind_ok_inv in H1 as (r & z & Hr & H1). apply inv_rd in Hr as [Hr ->]. unfold md in H1. injection H1 as <-. revert T1 T2 T3 T4 T5. gs. intros T1 T2 T3 T4 T5.
  split; [congruence|]. split; [congruence|]. split; [congruence|]. split; [congruence|].
  rewrite (current_epoch_ok E Hc) in Hr. cbn [rbind] in Hr. apply rbind_ok_inv in Hr as (ne & Hn & Hr). unfold next_epoch in Hn. rewrite (current_epoch_ok E Hc) in Hn. cbn [rbind] in Hn. apply (add_exact E _ _ _ Hk) in Hn.
  apply rbind_ok_inv in Hr as (i & Hi & Hr). apply rbind_ok_inv in Hr as (mix & Hm & Hr). apply rbind_ok_inv in Hr as (x & _ & Hr). apply Ok_inj in Hr. subst r ne.
  assert (Ee : epoch_of E s9 = epoch_of E s) by (unfold epoch_of; f_equal; exact K3). rewrite Ee in *.
  unfold get_randao_mix, umod in Hm, Hi. destruct (EPOCHS_PER_HISTORICAL_VECTOR E =? 0); [discriminate|]. cbn [rbind] in Hm. apply idx_ok in Hm. apply Ok_inj in Hi. subst i.
  exists mix. split; [unfold current_mix, mix_position; rewrite <- K5; exact Hm|]. rewrite T5, K5. reflexivity.
Qed.
Lemma exec_slot s t : ctx_sane E -> chk E = true -> slot s + 1 < 2 ^ 64 -> process_slots E f (slot s + 1) s = (Ok tt, t) ->
  slot t = slot s + 1 /\ genesis_time t = genesis_time s /\ latest_execution_payload_header t = latest_execution_payload_header s
  /\ bh_slot (latest_block_header t) = bh_slot (latest_block_header s)
  /\ (if (slot s + 1) mod SLOTS_PER_EPOCH E =? 0
      then exists mix, current_mix E s = Some mix /\ randao_mixes t = updN (randao_mixes s) ((epoch_of E s + 1) mod EPOCHS_PER_HISTORICAL_VECTOR E) mix
      else randao_mixes t = randao_mixes s).
Proof.
  intros Hc Hk Hb H. assert (Hb' : slot s + 1 < U64) by (rewrite U64_val; pows; lia).
  assert (Ha : advance_slot E f s = (Ok tt, t)).
  { rewrite process_slots_loop in H by lia. replace (N.to_nat (slot s + 1 - slot s)) with 1%nat in H by lia.
    rewrite loop_step in H by lia. apply sbind_ok_inv in H as ([] & m & H1 & H). rewrite loop_done in H; [injection H as <-; exact H1|].
    destruct (advance_inv E Hc f s m Hb' H1) as (s1 & s2 & _ & _ & _ & S2 & ->). gs. lia. }
  destruct (advance_inv E Hc f s t Hb' Ha) as (s1 & s2 & A1 & A2 & A3 & A4 & ->). gs. rewrite A4.
  assert (Q : latest_execution_payload_header s1 = latest_execution_payload_header s /\ bh_slot (latest_block_header s1) = bh_slot (latest_block_header s) /\ genesis_time s1 = genesis_time s
    /\ randao_mixes s1 = randao_mixes s).
  { unfold process_slot in A1. apply sbind_ok_inv in A1 as (r & z & Hr & A1). apply inv_rd in Hr as [_ ->]. apply sbind_ok_inv in A1 as ([] & a & B1 & A1). unfold md in B1. injection B1 as <-.
    apply sbind_ok_inv in A1 as ([] & a & B1 & A1). unfold md in B1. injection B1 as <-. apply sbind_ok_inv in A1 as (q & z & Hq & A1). apply inv_rd in Hq as [_ ->]. unfold md in A1. injection A1 as <-. gs.
    destruct (bytes_eqb _ _); gs; auto. }
  destruct Q as (Q1 & Q2 & Q3 & Q4). destruct (N.eqb_spec ((slot s + 1) mod SLOTS_PER_EPOCH E) 0) as [Hm|Hm].
  - destruct (exec_epoch s1 s2 Hc Hk A3) as (P1 & P2 & P3 & P4 & mix & P5 & P6). split; [reflexivity|]. split; [congruence|]. split; [congruence|]. split; [congruence|].
    assert (Ee : epoch_of E s1 = epoch_of E s) by (unfold epoch_of; f_equal; exact A2). exists mix. split; [|rewrite P6, Q4, Ee; reflexivity]. unfold current_mix, mix_position in *. rewrite Q4, Ee in P5. exact P5.
  - subst s2. auto.
Qed.
End Epoch.

(** ** Upgrades *)
Lemma ek_entire i : pres ek (queue_entire_balance_and_reset_validator i).
Proof. unfold queue_entire_balance_and_reset_validator. ekt. Qed.
Lemma exec_upgrade (E : Env) f g s t : chain_call E (f, s) (g, t) -> f <> g ->
  slot t = slot s /\ genesis_time t = genesis_time s /\ latest_block_header t = latest_block_header s /\ randao_mixes t = randao_mixes s
  /\ (fork_le Bellatrix f = true -> exec_head t = exec_head s /\ g <> Bellatrix).
Proof.
  intros H Hne. inversion H; subst; try congruence.
  - match goal with H : upgrade_to_altair E s = Ok t |- _ => rename H into Hu end. unfold upgrade_to_altair in Hu. rinv Hu. subst t. gs.
    match goal with H : translate_participation _ _ _ = Ok _ |- _ => unfold translate_participation in H; rinv H; subst end. unfold altair_base. gs. repeat split; discriminate.
  - match goal with H : upgrade_to_bellatrix E s = Ok t |- _ => unfold upgrade_to_bellatrix in H; rinv H; subst end. repeat split; discriminate.
  - match goal with H : upgrade_to_capella E s = Ok t |- _ => unfold upgrade_to_capella in H; rinv H; subst end. repeat split. discriminate.
  - match goal with H : upgrade_to_deneb E s = Ok t |- _ => unfold upgrade_to_deneb in H; rinv H; subst end. repeat split. discriminate.
  - match goal with H : upgrade_to_electra E s = Ok t |- _ => rename H into Hu end. unfold upgrade_to_electra in Hu. rinv Hu.
    match type of Hu with context [electra_finish E ?b] => assert (K : ek b (snd (electra_finish E b))) end.
    { generalize (electra_base E x x0 x1 s). change (pres ek (electra_finish E)). unfold electra_finish. ekt; apply ek_entire. }
    destruct (electra_finish E _) as [r post]. cbn [snd] in K. rinv Hu. subst post. destruct K as [K1 K2 K3 K4 K5 K6 K7]. revert K1 K2 K3 K4 K5. unfold electra_base. gs. intros K1 K2 K3 K4 K5.
    split; [exact K3|]. split; [exact K4|]. split; [exact K2|]. split; [exact K5|]. intros _. split; [unfold exec_head; rewrite K1; reflexivity|discriminate].
Qed.
