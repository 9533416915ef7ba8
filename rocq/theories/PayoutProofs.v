(** * The withdrawals of a chain (proof file; no model definitions) *)
From Verif Require Import Base BaseLemmas Types Ctx Env Helpers HelpersAltair HelpersElectra Block Epoch Transition Upgrade StLemmas
  SpecCommon SpecHelpers SpecFlow SpecFinality SpecPayouts Frame HelperProofs HelperProofs2 BlockProofs SlotProofs FlowProofs CrashProofs DepositProofs AuthorityProofs.
From Coq Require Import Relations.

Section N.
Variable E : Env.
Variable f : Fork.
Notation kN := (keeps next_withdrawal_index).
Lemma kn_mod i h : kN (mod_validator i h). Proof. unfold mod_validator. kp. Qed.
Lemma kn_inc i a : kN (increase_balance E i a). Proof. unfold increase_balance. kp. Qed.
Lemma kn_dec i a : kN (decrease_balance E i a). Proof. unfold decrease_balance. kp. Qed.
Lemma kn_exit i : kN (initiate_exit E f i).
Proof. unfold initiate_exit, initiate_validator_exit, initiate_validator_exit_electra, compute_exit_epoch_and_update_churn, mod_validator. kp. Qed.
Lemma kn_slash i w : kN (slash_validator E f i w).
Proof. unfold slash_validator. kp; try apply kn_mod; try apply kn_exit; try apply kn_inc; try apply kn_dec. Qed.
Ltac kb := kp; try apply kn_slash; try apply kn_mod; try apply kn_exit; try apply kn_inc; try apply kn_dec;
  try (apply keeps_md; intros ?; match goal with |- context [if ?c then _ else _] => destruct c end; reflexivity).
Lemma kn_pslash op : kN (process_proposer_slashing E f op). Proof. unfold process_proposer_slashing. kb. Qed.
Lemma kn_aslash op : kN (process_attester_slashing E f op). Proof. unfold process_attester_slashing. kb. Qed.
Lemma kn_att op : kN (process_attestation E f op).
Proof. unfold process_attestation, process_attestation_phase0, process_attestation_altair, attestation_flag_step, set_participation. kb. Qed.
Lemma kn_apply pk wc a sg : kN (apply_deposit E f pk wc a sg).
Proof. unfold apply_deposit, apply_deposit_electra, add_validator_to_registry, switch_to_compounding_validator, queue_excess_active_balance. kb. Qed.
Lemma kn_deposit d : kN (process_deposit E f d). Proof. unfold process_deposit. kp. apply kn_apply. Qed.
Lemma kn_ve op : kN (process_voluntary_exit E f op). Proof. unfold process_voluntary_exit. kb. Qed.
Lemma kn_bls op : kN (process_bls_to_execution_change E op). Proof. unfold process_bls_to_execution_change. kb. Qed.
Lemma kn_exit_e i : kN (initiate_validator_exit_electra E i).
Proof. unfold initiate_validator_exit_electra, compute_exit_epoch_and_update_churn, mod_validator. kp. Qed.
Lemma kn_req op : kN (process_execution_layer_withdrawal_request E op).
Proof. unfold process_execution_layer_withdrawal_request, compute_exit_epoch_and_update_churn. kb; apply kn_exit_e. Qed.
Lemma kn_receipt op : kN (process_deposit_receipt E op).
Proof. unfold process_deposit_receipt, apply_deposit_electra, add_validator_to_registry, switch_to_compounding_validator, queue_excess_active_balance. kb. Qed.
Lemma kn_cons op : kN (process_consolidation E op).
Proof. unfold process_consolidation, compute_consolidation_epoch_and_update_churn. kb. Qed.
Lemma kn_payload g b : kN (process_execution_payload E g b). Proof. unfold process_execution_payload. kb. Qed.
Lemma kn_randao b : kN (process_randao E b). Proof. unfold process_randao. kb. Qed.
Lemma kn_eth1 b : kN (process_eth1_data E b). Proof. unfold process_eth1_data. kp. Qed.
Lemma kn_sync a : kN (process_sync_aggregate E a). Proof. unfold process_sync_aggregate, sync_step. kb. Qed.
Lemma kn_ops b : kN (process_operations E f b).
Proof.
  unfold process_operations.
  repeat first [apply kn_pslash | apply kn_aslash | apply kn_att | apply kn_deposit | apply kn_ve | apply kn_bls | apply kn_req | apply kn_receipt | apply kn_cons
    | apply keeps_rd | apply keeps_when | apply keeps_for; intros ? | apply keeps_bind; [|intros ?]].
Qed.
Lemma kn_ok {A} (m : St BeaconState A) s a s' : kN m -> m s = (Ok a, s') -> next_withdrawal_index s' = next_withdrawal_index s.
Proof. intros H Hm. specialize (H s). rewrite Hm in H. exact H. Qed.

(** ** The expected list: numbered in order, and from validators whose funds are due *)
Definition in_order (i0 : N) (l : list Withdrawal) : Prop := forall k x, nthN l k = Some x -> w_index x = i0 + k.
Lemma in_order_snoc i0 l x : in_order i0 l -> w_index x = i0 + lenN l -> in_order i0 (l ++ [x]).
Proof.
  intros H Hx k y Hy. destruct (N.lt_ge_cases k (lenN l)) as [Hk|Hk]; [rewrite nthN_app_l in Hy by exact Hk; apply H; exact Hy|].
  rewrite nthN_app_r, nthN_cons in Hy by exact Hk. destruct (N.eqb_spec (k - lenN l) 0) as [He|He]; [|discriminate]. injection Hy as <-. rewrite Hx. lia.
Qed.
Lemma in_order_app i0 l k : in_order i0 l -> in_order (i0 + lenN l) k -> in_order i0 (l ++ k).
Proof.
  intros H K j y Hy. destruct (N.lt_ge_cases j (lenN l)) as [Hj|Hj]; [rewrite nthN_app_l in Hy by exact Hj; apply H; exact Hy|].
  rewrite nthN_app_r in Hy by exact Hj. rewrite (K _ _ Hy). lia.
Qed.
Lemma sweep_log g s i0 : chk E = true -> forall n wi vi acc r, sweep E g n s (epoch_of E s) wi vi acc = Ok r -> wi = i0 + lenN acc -> in_order i0 acc ->
  in_order i0 r /\ forall x, In x r -> In x acc \/ justified_payout E g s x.
Proof.
  intros Hk. induction n as [|n IH]; intros wi vi acc r H Hw Ho; cbn [sweep] in H; [injection H as <-; split; [exact Ho|intros x Hx; left; exact Hx]|].
  apply rbind_ok_inv in H as (v & Hv & H). apply rbind_ok_inv in H as (b & Hb & H). rewrite sweep_amount_ok in H. cbn [rbind] in H.
  apply idx_ok in Hv. apply idx_ok in Hb.
  apply rbind_ok_inv in H as (q & Hq & H).
  assert (Q : fst q = i0 + lenN (snd q) /\ in_order i0 (snd q) /\ forall x, In x (snd q) -> In x acc \/ justified_payout E g s x).
  { destruct (sweep_due E g s v b) as [a|] eqn:Ha; [|injection Hq as <-; cbn [fst snd]; split; [exact Hw|]; split; [exact Ho|intros x Hx; left; exact Hx]].
    apply rbind_ok_inv in Hq as (wi' & Hwi & Hq). apply (add_exact E _ _ _ Hk) in Hwi. injection Hq as <-. cbn [fst snd].
    split; [rewrite lenN_app; change (lenN [mkWithdrawal wi vi (cred_address v) a]) with 1; lia|].
    split; [apply in_order_snoc; [exact Ho|cbn [w_index]; lia]|]. intros x Hx. apply in_app_or in Hx as [Hx|[<-|[]]]; [left; exact Hx|right].
    exists v, b. cbn [w_validator_index w_amount w_address]. split; [exact Hv|]. split; [exact Hb|]. split; [exact Ha|reflexivity]. }
  destruct Q as (Q1 & Q2 & Q3). destruct (lenN (snd q) =? MAX_WITHDRAWALS_PER_PAYLOAD E); [injection H as <-; auto|].
  apply rbind_ok_inv in H as (vi1 & _ & H). apply rbind_ok_inv in H as (vi' & _ & H).
  destruct (IH _ _ _ _ H Q1 Q2) as [A B]. split; [exact A|]. intros x Hx. destruct (B x Hx) as [Hx'|Hx']; [apply Q3; exact Hx'|right; exact Hx'].
Qed.
Lemma partials_log s e vi i0 : chk E = true -> forall l wi acc r, partials E s e vi l wi acc = Ok r -> wi = i0 + lenN acc -> in_order i0 acc -> fst r = i0 + lenN (snd r) /\ in_order i0 (snd r).
Proof.
  intros Hk. induction l as [|w l IH]; intros wi acc r H Hw Ho; cbn [partials] in H; [injection H as <-; auto|].
  destruct ((e <? ppw_withdrawable_epoch w) || _); [injection H as <-; auto|].
  apply rbind_ok_inv in H as (v & _ & H). apply rbind_ok_inv in H as (b & _ & H). destruct (_ && _ && _); [|exact (IH _ _ _ H Hw Ho)].
  apply rbind_ok_inv in H as (ex & _ & H). apply rbind_ok_inv in H as (wi' & Hwi & H). apply (add_exact E _ _ _ Hk) in Hwi.
  apply (IH _ _ _ H); [rewrite lenN_app; match goal with |- context [lenN [?y]] => change (lenN [y]) with 1 end; lia|]. apply in_order_snoc; [exact Ho|cbn [w_index]; lia].
Qed.
Lemma expected_log s r : ctx_sane E -> chk E = true -> get_expected_withdrawals E f s = Ok r ->
  in_order (next_withdrawal_index s) (fst r) /\ (f <> Electra -> forall x, In x (fst r) -> justified_payout E f s x).
Proof.
  intros Hc Hk H.
  assert (Cap : forall g, g <> Electra -> get_expected_withdrawals E g s = (let! ws := get_expected_withdrawals_capella E s in Ok (ws, 0))) by (intros g Hg; destruct g; try reflexivity; contradiction).
  assert (Same : forall g x, g <> Electra -> justified_payout E Capella s x -> justified_payout E g s x).
  { intros g x Hg (v & b & A & B & C & D). exists v, b. split; [exact A|]. split; [exact B|]. split; [|exact D]. destruct g; try exact C. contradiction. }
  destruct (match f with Electra => true | _ => false end) eqn:Hf.
  - assert (f = Electra) by (destruct f; try discriminate; reflexivity). rewrite H0 in *. split; [|intros X; contradiction]. cbn [get_expected_withdrawals] in H. unfold get_expected_withdrawals_electra in H.
    apply rbind_ok_inv in H as (e & He & H). rewrite (current_epoch_ok E Hc) in He. injection He as <-.
    apply rbind_ok_inv in H as (p & Hp & H). apply rbind_ok_inv in H as (ws & Hw & H). injection H as <-. cbn [fst].
    destruct (partials_log s _ _ (next_withdrawal_index s) Hk _ _ _ _ Hp) as [P1 P2]; [change (lenN (@nil Withdrawal)) with 0; lia|intros k x Hx; discriminate|].
    exact (proj1 (sweep_log Electra s (next_withdrawal_index s) Hk _ _ _ _ _ Hw P1 P2)).
  - assert (Hne : f <> Electra) by (intros X; rewrite X in Hf; discriminate). rewrite (Cap f Hne) in H. unfold get_expected_withdrawals_capella in H.
    apply rbind_ok_inv in H as (ws & H & Hr). injection Hr as <-. cbn [fst]. apply rbind_ok_inv in H as (e & He & H). rewrite (current_epoch_ok E Hc) in He. injection He as <-.
    destruct (sweep_log Capella s (next_withdrawal_index s) Hk _ _ _ _ _ H) as [A B]; [change (lenN (@nil Withdrawal)) with 0; lia|intros k x Hx; discriminate|].
    split; [exact A|]. intros _ x Hx. destruct (B x Hx) as [[]|Hx']. apply Same; assumption.
Qed.
Lemma last_nth {A} (l : list A) x : last_opt l = Some x -> nthN l (lenN l - 1) = Some x /\ 1 <= lenN l.
Proof.
  rewrite last_opt_rev. destruct (rev l) as [|y t] eqn:Hr; [discriminate|]. intros [= ->]. assert (Hl : l = rev t ++ [x]) by (rewrite <- (rev_involutive l), Hr; reflexivity).
  rewrite Hl, lenN_app. change (lenN [x]) with 1. split; [|lia]. rewrite nthN_app_r by lia. replace (lenN (rev t) + 1 - 1 - lenN (rev t)) with 0 by lia. reflexivity.
Qed.
Lemma withdrawals_log p s t : ctx_sane E -> chk E = true -> process_withdrawals E f p s = (Ok tt, t) ->
  next_withdrawal_index t = next_withdrawal_index s + lenN (ep_withdrawals p) /\ in_order (next_withdrawal_index s) (ep_withdrawals p)
  /\ (f <> Electra -> forall x, In x (ep_withdrawals p) -> justified_payout E f s x).
Proof.
  intros Hc Hk H. unfold process_withdrawals in H. apply sbind_ok_inv in H as (e & s0 & H0 & H). apply inv_rd in H0 as [H0 ->]. unfold withdrawals_checks in H0.
  apply rbind_ok_inv in H0 as (e' & He & H0). apply rbind_ok_inv in H0 as ([] & Hq & H0). injection H0 as ->. apply require_ok in Hq. unfold withdrawals_eqb in Hq.
  destruct (list_eq_dec Withdrawal_eq_dec (ep_withdrawals p) (fst e)) as [Hp|]; [clear Hq|discriminate]. destruct (expected_log s e Hc Hk He) as [A B]. rewrite Hp.
  split; [|split; [exact A|exact B]].
  apply sbind_ok_inv in H as ([] & s1 & H1 & H). apply kn_ok in H1; [|apply keeps_for; intros; apply kn_dec].
  apply sbind_ok_inv in H as ([] & s2 & H2 & H). apply kn_ok in H2; [|kp].
  apply sbind_ok_inv in H as ([] & s3 & H3 & H). apply kn_ok in H; [|kp].
  rewrite H. destruct (last_opt (fst e)) as [x|] eqn:Hl.
  - apply last_nth in Hl as [Hl Hl1]. apply sbind_ok_inv in H3 as (i & s4 & H3 & H4). apply inv_lift in H3 as [H3 ->]. apply (add_exact E _ _ _ Hk) in H3. injection H4 as <-. gs.
    rewrite (A _ _ Hl) in H3. lia.
  - injection H3 as <-. destruct (fst e) as [|y l]; [change (lenN (@nil Withdrawal)) with 0; lia|discriminate].
Qed.
Lemma block_log b s t : ctx_sane E -> chk E = true -> process_block E f b s = (Ok tt, t) ->
  next_withdrawal_index t = next_withdrawal_index s + lenN (payouts f b) /\ in_order (next_withdrawal_index s) (payouts f b)
  /\ (f <> Electra -> forall x, In x (payouts f b) -> justified_payout E f s x).
Proof.
  intros Hc Hk H. unfold process_block in H. cbv zeta in H. apply sbind_ok_inv in H as ([] & s1 & H1 & H). apply sbind_ok_inv in H as ([] & s2 & H2 & H).
  apply sbind_ok_inv in H as ([] & s3 & H3 & H). apply sbind_ok_inv in H as ([] & s4 & H4 & H). apply sbind_ok_inv in H as ([] & s5 & H5 & H).
  apply kn_ok in H3; [|apply kn_randao]. apply kn_ok in H4; [|apply kn_eth1]. apply kn_ok in H5; [|apply kn_ops]. apply kn_ok in H; [|apply keeps_when, kn_sync].
  assert (K : keeps (fun s => (next_withdrawal_index s, validators s, balances s, slot s)) (process_block_header E f b)) by (unfold process_block_header; kp).
  specialize (K s). rewrite H1 in K. cbn [snd] in K. injection K as K1 K2 K3 K4.
  assert (J : forall x, justified_payout E f s1 x -> justified_payout E f s x).
  { intros x (v & bb & P1 & P2 & P3 & P4). exists v, bb. rewrite K2 in P1. rewrite K3 in P2. split; [exact P1|]. split; [exact P2|]. split; [|exact P4].
    unfold sweep_due, epoch_of in P3 |- *. rewrite K4 in P3. exact P3. }
  enough (G : next_withdrawal_index s2 = next_withdrawal_index s1 + lenN (payouts f b) /\ in_order (next_withdrawal_index s1) (payouts f b)
    /\ (f <> Electra -> forall x, In x (payouts f b) -> justified_payout E f s1 x)).
  { destruct G as (G1 & G2 & G3). split; [congruence|]. split; [rewrite <- K1; exact G2|]. intros Hf x Hx. apply J, (G3 Hf x Hx). }
  assert (Z : fork_le Capella f = false -> next_withdrawal_index s2 = next_withdrawal_index s1 ->
    next_withdrawal_index s2 = next_withdrawal_index s1 + lenN (payouts f b) /\ in_order (next_withdrawal_index s1) (payouts f b)
    /\ (f <> Electra -> forall x, In x (payouts f b) -> justified_payout E f s1 x)).
  { intros Hf Hs. unfold payouts. rewrite Hf. split; [change (lenN (@nil Withdrawal)) with 0; lia|]. split; [intros k x Hx; discriminate|intros _ x []]. }
  assert (W : fork_le Capella f = true -> (process_withdrawals E f (bb_execution_payload (bk_body b));; process_execution_payload E f (bk_body b)) s1 = (Ok tt, s2) ->
    next_withdrawal_index s2 = next_withdrawal_index s1 + lenN (payouts f b) /\ in_order (next_withdrawal_index s1) (payouts f b)
    /\ (f <> Electra -> forall x, In x (payouts f b) -> justified_payout E f s1 x)).
  { intros Hf Hs. apply sbind_ok_inv in Hs as ([] & sx & Hx & Hy). apply kn_ok in Hy; [|apply kn_payload]. unfold payouts. rewrite Hf, Hy. apply withdrawals_log; assumption. }
  clear - H2 Z W. revert H2 Z W. destruct f; intros H2 Z W; try (injection H2 as <-; apply Z; reflexivity); try (apply W; [reflexivity|exact H2]).
  apply Z; [reflexivity|]. apply sbind_ok_inv in H2 as (en & sx & H2 & H2'). apply inv_rd in H2 as [_ ->]. apply kn_ok in H2'; [exact H2'|apply keeps_when, kn_payload].
Qed.
End N.
Lemma evo_number E f l s t : l <> LBlock -> evo E f l s t -> next_withdrawal_index t = next_withdrawal_index s.
Proof.
  intros Hl H. induction H as [s t H|s|s t u _ IH1 _ IH2]; [|reflexivity|congruence].
  inversion H; subst; try contradiction; try reflexivity.
Qed.
Lemma slot_number (E : Env) f s t : ctx_sane E -> slot s + 1 < 2 ^ 64 -> process_slots E f (slot s + 1) s = (Ok tt, t) -> next_withdrawal_index t = next_withdrawal_index s.
Proof.
  intros Hc Hb H. assert (Hb' : slot s + 1 < U64) by (rewrite U64_val; pows; lia).
  assert (Ha : advance_slot E f s = (Ok tt, t)).
  { rewrite process_slots_loop in H by lia. replace (N.to_nat (slot s + 1 - slot s)) with 1%nat in H by lia.
    rewrite loop_step in H by lia. apply sbind_ok_inv in H as ([] & m & H1 & H). rewrite loop_done in H; [injection H as <-; exact H1|].
    destruct (advance_inv E Hc f s m Hb' H1) as (s1 & s2 & _ & _ & _ & S2 & ->). gs. lia. }
  destruct (advance_inv E Hc f s t Hb' Ha) as (s1 & s2 & A1 & A2 & A3 & A4 & ->). gs.
  pose proof (evp_slot E f s) as P. rewrite A1 in P. apply evo_number in P; [|discriminate]. cbn [snd] in P. rewrite <- P.
  destruct ((slot s + 1) mod SLOTS_PER_EPOCH E =? 0); [|subst; reflexivity].
  pose proof (evp_epoch E f s1) as Q. rewrite A3 in Q. apply evo_number in Q; [exact Q|discriminate].
Qed.
(** an upgrade leaves the next number alone, except that capella starts at 0 *)
Lemma upgrade_number (E : Env) f g s t : chain_call E (f, s) (g, t) -> f <> g ->
  (fork_le Capella f = false /\ fork_le Capella g = false) \/ (fork_le Capella f = false /\ next_withdrawal_index t = 0)
  \/ (fork_le Capella f = true /\ fork_le Capella g = true /\ next_withdrawal_index t = next_withdrawal_index s).
Proof.
  intros H Hne. inversion H; subst; try congruence; try (left; split; reflexivity).
  - right. left. split; [reflexivity|]. match goal with H : upgrade_to_capella E s = Ok t |- _ => unfold upgrade_to_capella in H; rinv H; subst end. reflexivity.
  - right. right. split; [reflexivity|]. split; [reflexivity|]. match goal with H : upgrade_to_deneb E s = Ok t |- _ => unfold upgrade_to_deneb in H; rinv H; subst end. reflexivity.
  - right. right. split; [reflexivity|]. split; [reflexivity|]. match goal with H : upgrade_to_electra E s = Ok t |- _ => rename H into Hu end. unfold upgrade_to_electra in Hu. rinv Hu.
    match type of Hu with context [electra_finish E ?b] => assert (K : next_withdrawal_index (snd (electra_finish E b)) = next_withdrawal_index b) end.
    { generalize (electra_base E x x0 x1 s). change (keeps next_withdrawal_index (electra_finish E)). unfold electra_finish, queue_entire_balance_and_reset_validator, queue_excess_active_balance, mod_validator. kp. }
    destruct (electra_finish E _) as [r post]. cbn [snd] in K. rinv Hu. subst post. rewrite K. unfold electra_base. gs. reflexivity.
Qed.
Lemma served_runs (E : Env) p0 z w l : ctx_sane E -> chk E = true -> served E p0 (z :: w) l ->
  (fork_le Capella (fst z) = true -> next_withdrawal_index (snd z) = first_number p0 + lenN l) /\ (fork_le Capella (fst z) = false -> l = [] /\ fork_le Capella (fst p0) = false)
  /\ in_order (first_number p0) l
  /\ forall x, In x l -> exists g s, In (g, s) (z :: w) /\ fork_le Capella g = true /\ (g <> Electra -> justified_payout E g s x).
Proof.
  intros Hc Hk H. remember (z :: w) as zw eqn:Ez. revert z w Ez.
  induction H as [|f s t w l H IH Hb Hs|f b s t w l H IH Hp|f g s t w l H IH Hu Hne]; intros z w' Ez; injection Ez as <- <-; cbn [fst snd] in *.
  - change (lenN (@nil Withdrawal)) with 0. split; [intros Hf; unfold first_number; rewrite Hf; lia|]. split; [intros Hf; split; [reflexivity|exact Hf]|]. split; [intros k x Hx; discriminate|intros x []].
  - destruct (IH _ _ eq_refl) as (A & B & C & D). cbn [fst snd] in *. rewrite (slot_number E f s t Hc Hb Hs). split; [exact A|]. split; [exact B|]. split; [exact C|].
    intros x Hx. destruct (D x Hx) as (g & u & I & R). exists g, u. split; [right; exact I|exact R].
  - destruct (IH _ _ eq_refl) as (A & B & C & D). cbn [fst snd] in *. destruct (block_log E f b s t Hc Hk Hp) as (P1 & P2 & P3). rewrite lenN_app.
    destruct (fork_le Capella f) eqn:Hf.
    + specialize (A eq_refl). split; [intros _; lia|]. split; [discriminate|]. split; [apply in_order_app; [exact C|rewrite <- A; exact P2]|].
      intros x Hx. apply in_app_or in Hx as [Hx|Hx]; [destruct (D x Hx) as (g & u & I & R); exists g, u; split; [right; exact I|exact R]|].
      exists f, s. split; [right; left; reflexivity|]. split; [exact Hf|]. intros Hne. exact (P3 Hne x Hx).
    + destruct (B eq_refl) as [-> B']. assert (Hpay : payouts f b = []) by (unfold payouts; rewrite Hf; reflexivity). rewrite Hpay. split; [discriminate|]. split; [auto|]. split; [intros k x Hx; discriminate|intros x []].
  - destruct (IH _ _ eq_refl) as (A & B & C & D). cbn [fst snd] in *.
    assert (D' : forall x, In x l -> exists g' s', In (g', s') ((g, t) :: (f, s) :: w) /\ fork_le Capella g' = true /\ (g' <> Electra -> justified_payout E g' s' x)).
    { intros x Hx. destruct (D x Hx) as (g' & u & I & R). exists g', u. split; [right; exact I|exact R]. }
    destruct (upgrade_number E f g s t Hu Hne) as [[U1 U2]|[[U1 U2]|(U1 & U2 & U3)]].
    + split; [rewrite U2; discriminate|]. split; [intros _; exact (B U1)|]. split; [exact C|exact D'].
    + destruct (B U1) as [-> B']. split; [intros _; unfold first_number; rewrite B', U2; reflexivity|]. split; [auto|]. split; [exact C|exact D'].
    + split; [intros _; rewrite U3; exact (A U1)|]. split; [rewrite U2; discriminate|]. split; [exact C|exact D'].
Qed.
