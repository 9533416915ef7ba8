(** * Proofs about exits, slashing and the operations that cause them (proof file; no model definitions) *)
From Verif Require Import Base BaseLemmas Types Ctx Env Helpers HelpersAltair HelpersElectra Block StLemmas
  SpecCommon SpecShuffle SpecHelpers SpecOps SpecElectra HelperProofs HelperProofs2 OpsProofs ElectraProofs.
From Coq Require Import Sorted Permutation.

Lemma lenN_credit i d l : lenN (credit i d l) = lenN l.
Proof. unfold credit. destruct (nthN l i); [apply lenN_updN|reflexivity]. Qed.
Lemma lenN_debit i d l : lenN (debit i d l) = lenN l.
Proof. unfold debit. destruct (nthN l i); [apply lenN_updN|reflexivity]. Qed.
Lemma nthN_credit i d l j : nthN (credit i d l) j = if j =? i then option_map (fun b => b + d) (nthN l i) else nthN l j.
Proof.
  unfold credit. destruct (nthN l i) as [b|] eqn:Hb; cbn [option_map]; destruct (N.eqb_spec j i) as [->|Hj]; try reflexivity.
  - apply nthN_updN_eq. eapply nthN_some; eauto.
  - apply nthN_updN_ne. congruence.
  - exact Hb.
Qed.
Lemma nthN_debit i d l j : nthN (debit i d l) j = if j =? i then option_map (fun b => b - d) (nthN l i) else nthN l j.
Proof.
  unfold debit. destruct (nthN l i) as [b|] eqn:Hb; cbn [option_map]; destruct (N.eqb_spec j i) as [->|Hj]; try reflexivity.
  - apply nthN_updN_eq. eapply nthN_some; eauto.
  - apply nthN_updN_ne. congruence.
  - exact Hb.
Qed.
Lemma credit_credit i a b l : credit i b (credit i a l) = credit i (a + b) l.
Proof.
  apply nthN_ext. intros j. rewrite !nthN_credit, N.eqb_refl. destruct (j =? i); [|reflexivity]. destruct (nthN l i); cbn; [f_equal; lia|reflexivity].
Qed.
Lemma credit_0 i l : credit i 0 l = l.
Proof. apply nthN_ext. intros j. rewrite nthN_credit. destruct (N.eqb_spec j i) as [->|]; [|reflexivity]. destruct (nthN l i); cbn; [f_equal; lia|reflexivity]. Qed.
Lemma In_credit i d l x : In x (credit i d l) -> In x l \/ exists b, In b l /\ x = b + d.
Proof. unfold credit. destruct (nthN l i) eqn:Hb; [|auto]. intros H. apply In_updN in H as [->|H]; [right; eauto using nthN_In|auto]. Qed.
Lemma In_debit i d l x : In x (debit i d l) -> In x l \/ exists b, In b l /\ x = b - d.
Proof. unfold debit. destruct (nthN l i) eqn:Hb; [|auto]. intros H. apply In_updN in H as [->|H]; [right; eauto using nthN_In|auto]. Qed.

Lemma increase_credit E s i d : i < lenN (balances s) -> (forall b, nthN (balances s) i = Some b -> b + d < U64) ->
  increase_balance E i d s = (Ok tt, set_balances (credit i d (balances s)) s).
Proof.
  intros Hi Hd. destruct (nthN_lt _ _ Hi) as [b Hb]. rewrite (increase_balance_ok E s i d b Hb (Hd b Hb)). unfold credit. rewrite Hb. reflexivity.
Qed.
Lemma decrease_debit E s i d : i < lenN (balances s) -> decrease_balance E i d s = (Ok tt, set_balances (debit i d (balances s)) s).
Proof. intros Hi. destruct (nthN_lt _ _ Hi) as [b Hb]. rewrite (decrease_balance_ok E s i d b Hb). unfold debit. rewrite Hb. reflexivity. Qed.

Section WithEnv.
Variable E : Env.
Hypothesis Hctx : ctx_sane E.
Hypothesis Hel : ctx_sane_electra E.

(** ** initiate_exit of every fork *)
Lemma exit_cases f s i v : slot_small s -> exit_room E f s -> nthN (validators s) i = Some v ->
  exists s1 v1, initiate_exit E f i s = (Ok tt, s1) /\ nthN (validators s1) i = Some v1
    /\ same_duties E s s1 /\ lenN (validators s1) = lenN (validators s)
    /\ (forall j, j <> i -> nthN (validators s1) j = nthN (validators s) j)
    /\ set_v_exit_epoch 0 (set_v_withdrawable_epoch 0 v1) = set_v_exit_epoch 0 (set_v_withdrawable_epoch 0 v)
    /\ v_exit_epoch v1 <> FAR_FUTURE_EPOCH
    /\ (v_exit_epoch v = FAR_FUTURE_EPOCH -> earliest_exit E s <= v_exit_epoch v1 < 2 ^ 63 /\ v_withdrawable_epoch v1 = v_exit_epoch v1 + MIN_VALIDATOR_WITHDRAWABILITY_DELAY E)
    /\ (v_exit_epoch v <> FAR_FUTURE_EPOCH -> s1 = s)
    /\ (exists q b, s1 = set_validators (validators s1) (set_earliest_exit_epoch q (set_exit_balance_to_consume b s))
         /\ (f <> Electra -> q = earliest_exit_epoch s /\ b = exit_balance_to_consume s)).
Proof.
  intros Hs Hr Hv. destruct (N.eq_dec (v_exit_epoch v) FAR_FUTURE_EPOCH) as [Hne|Hne].
  - pose proof (epoch_small E Hctx s Hs) as Hep.
    assert (HFF : epoch_of E s < FAR_FUTURE_EPOCH) by (unfold FAR_FUTURE_EPOCH; pows; lia).
    assert (Hlt : i < lenN (validators s)) by (eapply nthN_some; eauto).
    assert (Hgen : forall q s0, initiate_exit E f i s = (Ok tt, set_validators (updN (validators s) i (exited E q v)) s0) ->
       earliest_exit E s <= q < 2 ^ 63 -> (exists a b, s0 = set_earliest_exit_epoch a (set_exit_balance_to_consume b s)
         /\ (f <> Electra -> a = earliest_exit_epoch s /\ b = exit_balance_to_consume s)) ->
       exists s1 v1, initiate_exit E f i s = (Ok tt, s1) /\ nthN (validators s1) i = Some v1
    /\ same_duties E s s1 /\ lenN (validators s1) = lenN (validators s)
    /\ (forall j, j <> i -> nthN (validators s1) j = nthN (validators s) j)
    /\ set_v_exit_epoch 0 (set_v_withdrawable_epoch 0 v1) = set_v_exit_epoch 0 (set_v_withdrawable_epoch 0 v)
    /\ v_exit_epoch v1 <> FAR_FUTURE_EPOCH
    /\ (v_exit_epoch v = FAR_FUTURE_EPOCH -> earliest_exit E s <= v_exit_epoch v1 < 2 ^ 63 /\ v_withdrawable_epoch v1 = v_exit_epoch v1 + MIN_VALIDATOR_WITHDRAWABILITY_DELAY E)
    /\ (v_exit_epoch v <> FAR_FUTURE_EPOCH -> s1 = s)
    /\ (exists q b, s1 = set_validators (validators s1) (set_earliest_exit_epoch q (set_exit_balance_to_consume b s))
         /\ (f <> Electra -> q = earliest_exit_epoch s /\ b = exit_balance_to_consume s))).
    { intros q s0 H1 H2 (a & b & -> & Hab). eexists. exists (exited E q v). split; [exact H1|]. gs.
      split; [apply nthN_updN_eq; exact Hlt|]. split; [|split; [apply lenN_updN|split; [intros j Hj; apply nthN_updN_ne; congruence|]]].
      - unfold earliest_exit in H2. apply (active_after_exit' E s i v q); try assumption; try reflexivity. lia.
      - split; [reflexivity|]. unfold exited. gs. split; [unfold FAR_FUTURE_EPOCH; pows; lia|]. split; [intros _; split; [exact H2|reflexivity]|].
        split; [contradiction|]. exists a, b. split; [reflexivity|exact Hab]. }
    destruct (Fork_eq_dec f Electra) as [->|Hf].
    + destruct Hr as (Hf & Hx & Hq). pose proof (staying_le _ _ _ Hv Hne) as Hsl.
      eapply (Hgen (exit_slot E s (v_effective_balance v))).
      * cbn [initiate_exit]. rewrite (initiate_exit_electra_ok E Hctx Hel s i v Hs Hf Hx ltac:(lia) ltac:(pows; lia) Hv Hne). reflexivity.
      * pose proof (exit_slot_ge E s (v_effective_balance v)). pose proof (queue_start_ge E s). pose proof (exit_churn_bounds E Hctx Hel s).
        pose proof (churn_epochs_le (exit_churn E s) (exit_queue_budget E s) (v_effective_balance v) ltac:(lia)). unfold exit_slot in *. pows. lia.
      * do 2 eexists. split; [reflexivity|]. intros []; reflexivity.
    + assert (Hr' : exits_below s (2 ^ 62)) by (destruct f; try exact Hr; contradiction).
      assert (He : earliest_exit E s < 2 ^ 62). { unfold earliest_exit. clear Hel. ctxs Hctx. lia. }
      pose proof (queue_head_lt E s _ Hr' He) as Hq. pose proof (next_exit_bounds E s) as Hn. pose proof (queue_head_earliest E s) as Hqe.
      eapply (Hgen (next_exit E s) s).
      * replace (initiate_exit E f i) with (initiate_validator_exit E i) by (destruct f; try reflexivity; contradiction).
        rewrite (initiate_exit_ok E Hctx s i v Hv Hne Hs ltac:(pows; lia)). reflexivity.
      * pows. lia.
      * exists (earliest_exit_epoch s), (exit_balance_to_consume s). split; [|auto].
        rewrite set_exit_balance_to_consume_id, set_earliest_exit_epoch_id. reflexivity.
  - exists s, v. split.
    { destruct (Fork_eq_dec f Electra) as [->|Hf]; [exact (initiate_exit_electra_noop E s i v Hv Hne)|].
      replace (initiate_exit E f i) with (initiate_validator_exit E i) by (destruct f; try reflexivity; contradiction). exact (initiate_exit_noop E s i v Hv Hne). }
    split; [exact Hv|]. split; [apply same_duties_refl|]. split; [reflexivity|]. split; [reflexivity|]. split; [reflexivity|].
    split; [exact Hne|]. split; [contradiction|]. split; [reflexivity|]. exists (earliest_exit_epoch s), (exit_balance_to_consume s). split; [|auto].
    rewrite set_exit_balance_to_consume_id, set_earliest_exit_epoch_id, set_validators_id. reflexivity.
Qed.

(** ** slash_validator *)
Definition reward_share (f : Fork) (wr : N) : N := match f with Phase0 => wr / PROPOSER_REWARD_QUOTIENT E | _ => 0 end.
Lemma reward_share_le f wr : 1 <= PROPOSER_REWARD_QUOTIENT E -> reward_share f wr <= wr.
Proof. intros H. unfold reward_share. destruct f; try lia. apply N.div_le_upper_bound; nia. Qed.
Definition slashed_record s v1 : Validator :=
  set_v_slashed true (set_v_withdrawable_epoch (N.max (v_withdrawable_epoch v1) (epoch_of E s + EPOCHS_PER_SLASHINGS_VECTOR E)) v1).
Lemma slash_run f s i v p wb : slot_small s -> exit_room E f s -> nthN (validators s) i = Some v ->
  slashing_quotients_pos E f -> amounts_small s -> v_effective_balance v < 2 ^ 62 ->
  lenN (slashings s) = EPOCHS_PER_SLASHINGS_VECTOR E -> i < lenN (balances s) ->
  get_beacon_proposer_index E s = Ok p -> p < lenN (balances s) ->
  (match wb with Some w => w < lenN (balances s) | None => True end) ->
  exists s1 v1, initiate_exit E f i s = (Ok tt, s1) /\ nthN (validators s1) i = Some v1 /\
    slash_validator E f i wb s =
    (Ok tt, set_balances (credit (match wb with Some w => w | None => p end) (v_effective_balance v / reward_quotient E f - reward_share f (v_effective_balance v / reward_quotient E f))
                         (credit p (reward_share f (v_effective_balance v / reward_quotient E f))
                         (debit i (v_effective_balance v / penalty_quotient E f) (balances s))))
           (set_slashings (credit (epoch_of E s mod EPOCHS_PER_SLASHINGS_VECTOR E) (v_effective_balance v) (slashings s))
           (set_validators (updN (validators s1) i (slashed_record s v1)) s1))).
Proof.
  intros Hs Hr Hv (Q1 & Q2 & Q3) (Hbal & Hslm) Hev Hsll Hib Hp Hpb Hwb.
  destruct (exit_cases f s i v Hs Hr Hv) as (s1 & v1 & Hx & Hv1 & Hd & Hl & Hoth & Hrec & Hne & _ & _ & q & b & Hs1 & _).
  exists s1, v1. split; [exact Hx|]. split; [exact Hv1|].
  assert (Hb1 : balances s1 = balances s) by (rewrite Hs1; gs; reflexivity).
  assert (Hsl1 : slashings s1 = slashings s) by (rewrite Hs1; gs; reflexivity).
  assert (Hev1 : v_effective_balance v1 = v_effective_balance v).
  { apply (f_equal v_effective_balance) in Hrec. gsh Hrec. exact Hrec. }
  assert (Hlt : i < lenN (validators s1)) by (eapply nthN_some; eauto).
  unfold slash_validator. rewrite (run_rd _ _ _ _ (current_epoch_ok E Hctx s)). rewrite (run_bind _ _ _ _ _ Hx).
  rewrite (run_bind _ _ _ _ _ (mod_validator_ok s1 i _ v1 Hv1)).
  pose proof (epoch_small E Hctx s Hs) as Hep.
  rewrite (run_lift _ _ _ (epoch_of E s + EPOCHS_PER_SLASHINGS_VECTOR E)).
  2: { unfold add. apply uadd_ok. clear Hel. ctxs Hctx. lia. }
  assert (HvA : nthN (validators (set_validators (updN (validators s1) i (set_v_slashed true v1)) s1)) i = Some (set_v_slashed true v1)) by (gs; apply nthN_updN_eq; exact Hlt).
  rewrite (run_bind _ _ _ _ _ (mod_validator_ok _ i _ (set_v_slashed true v1) HvA)). gs.
  rewrite updN_updN.
  rewrite (run_lift _ _ _ (epoch_of E s mod EPOCHS_PER_SLASHINGS_VECTOR E)) by (apply umod_ok; clear Hel; ctxs Hctx; lia).
  set (v2 := set_v_withdrawable_epoch _ _). set (s2 := set_validators (updN (validators s1) i v2) s1).
  rewrite (run_rd _ _ _ v2) by (apply idx_ok; unfold s2; gs; apply nthN_updN_eq; exact Hlt).
  assert (Hev2 : v_effective_balance v2 = v_effective_balance v) by (unfold v2; gs; exact Hev1).
  rewrite Hev2.
  assert (Hk : epoch_of E s mod EPOCHS_PER_SLASHINGS_VECTOR E < lenN (slashings s)) by (rewrite Hsll; apply N.mod_lt; clear Hel; ctxs Hctx; lia).
  destruct (nthN_lt _ _ Hk) as [x Hxk].
  rewrite (run_rd _ _ _ (x + v_effective_balance v)).
  2: { cbv beta. unfold s2. gs. rewrite Hsl1. apply idx_ok in Hxk. rewrite Hxk. cbn [rbind]. unfold add. apply uadd_ok.
       apply idx_ok in Hxk. specialize (Hslm x (nthN_In _ _ _ Hxk)). pows. lia. }
  rewrite run_md.
  replace (slashings s2) with (slashings s) by (unfold s2; gs; congruence).
  assert (Hcs : updN (slashings s) (epoch_of E s mod EPOCHS_PER_SLASHINGS_VECTOR E) (x + v_effective_balance v)
     = credit (epoch_of E s mod EPOCHS_PER_SLASHINGS_VECTOR E) (v_effective_balance v) (slashings s)) by (unfold credit; rewrite Hxk; reflexivity).
  rewrite Hcs. set (sl' := credit _ _ (slashings s)).
  rewrite (run_lift _ _ _ (v_effective_balance v / penalty_quotient E f)).
  2: { replace (slashing_penalty_quotient E f) with (penalty_quotient E f) by (destruct f; reflexivity). apply udiv_ok. lia. }
  assert (Hb2 : balances (set_slashings sl' s2) = balances s) by (unfold s2; gs; exact Hb1).
  rewrite (run_bind _ _ _ _ _ (decrease_debit E (set_slashings sl' s2) i _ ltac:(rewrite Hb2; exact Hib))). rewrite Hb2.
  set (d := debit _ _ (balances s)). set (s3 := set_balances d (set_slashings sl' s2)).
  assert (Hd3 : same_duties E s s3).
  { eapply same_duties_trans; [exact Hd|]. apply (same_duties_trans E s1 s2 s3); [|apply same_duties_fields; reflexivity].
    apply (same_duties_upd E s1 i v1 v2 Hv1); unfold v2; gs; [reflexivity|]. unfold is_active_validator. gs. reflexivity. }
  rewrite (run_rd _ _ _ p) by (rewrite (proposer_ext E s s3 Hctx Hd3); exact Hp).
  assert (Hqr : v_effective_balance v / reward_quotient E f <= v_effective_balance v) by (apply N.div_le_upper_bound; nia).
  set (wr := v_effective_balance v / reward_quotient E f) in *.
  rewrite (run_lift _ _ _ wr).
  2: { replace (whistleblower_quotient E f) with (reward_quotient E f) by (destruct f; reflexivity). apply udiv_ok. lia. }
  pose proof (reward_share_le f wr Q3) as Hsh.
  rewrite (run_lift _ _ _ (reward_share f wr)).
  2: { unfold slashing_proposer_reward, reward_share. destruct f; [apply udiv_ok; lia|..];
       (rewrite udiv_ok by (vm_compute; discriminate); cbn [rbind]; change (PROPOSER_WEIGHT / WEIGHT_DENOMINATOR) with 0; unfold mul; rewrite umul_ok by (rewrite N.mul_0_r; pows; lia); rewrite N.mul_0_r; reflexivity). }
  assert (Hbd : forall x, In x d -> x < 2 ^ 62).
  { intros y Hy. apply In_debit in Hy as [Hy|(b0 & Hy & ->)]; [auto|]. eapply N.le_lt_trans; [apply N.le_sub_l|exact (Hbal _ Hy)]. }
  assert (Hld : lenN d = lenN (balances s)) by apply lenN_debit.
  assert (Hb3 : balances s3 = d) by reflexivity.
  rewrite (run_bind _ _ _ _ _ (increase_credit E s3 p (reward_share f wr) ltac:(rewrite Hb3, Hld; exact Hpb)
     ltac:(rewrite Hb3; intros y Hy; specialize (Hbd y (nthN_In _ _ _ Hy)); pows; lia))). rewrite Hb3.
  set (c := credit p _ d). set (s4 := set_balances c s3).
  rewrite (run_lift _ _ _ (wr - reward_share f wr)) by (unfold sub; apply usub_ok; exact Hsh).
  assert (Hb4 : balances s4 = c) by reflexivity.
  rewrite (increase_credit E s4).
  - rewrite Hb4. reflexivity.
  - rewrite Hb4. unfold c. rewrite lenN_credit, Hld. destruct wb; assumption.
  - rewrite Hb4. intros y Hy. apply nthN_In in Hy. apply In_credit in Hy as [Hy|(b0 & Hy & ->)]; specialize (Hbd _ Hy); pows; lia.
Qed.

(** ** slashing one validator leaves the others alone, whatever the outcome *)
Definition others (i : N) (s s' : BeaconState) : Prop :=
  lenN (validators s') = lenN (validators s) /\ slot s' = slot s /\ (forall j, j <> i -> nthN (validators s') j = nthN (validators s) j).
Lemma others_refl i s : others i s s. Proof. split; [reflexivity|split; reflexivity]. Qed.
Lemma others_trans i a b c : others i a b -> others i b c -> others i a c.
Proof. intros (A1 & A2 & A3) (B1 & B2 & B3). split; [congruence|]. split; [congruence|]. intros j Hj. rewrite B3, A3 by exact Hj. reflexivity. Qed.
Lemma others_same i s s' : validators s' = validators s -> slot s' = slot s -> others i s s'.
Proof. intros H1 H2. split; [congruence|]. split; [exact H2|]. intros; congruence. Qed.
Lemma others_mod i g : pres (others i) (mod_validator i g).
Proof.
  intros s. unfold mod_validator. unfold sbind, rd. destruct (idx (validators s) i) as [v| | |]; try apply others_refl.
  cbn. split; [gs; apply lenN_updN|]. split; [reflexivity|]. intros j Hj. gs. apply nthN_updN_ne. congruence.
Qed.
Ltac oth := repeat first
  [ apply others_mod | apply (pres_bind (others _) (others_trans _)); [|intros ?] | apply (pres_ret _ (others_refl _)) | apply (pres_rd _ (others_refl _)) | apply (pres_lift _ (others_refl _))
  | apply others_mod | (apply pres_md; intros ?; apply others_same; reflexivity)
  | match goal with |- pres _ (if ?c then _ else _) => destruct c end ].
Lemma others_exit f i : pres (others i) (initiate_exit E f i).
Proof.
  unfold initiate_exit, initiate_validator_exit_electra, initiate_validator_exit, compute_exit_epoch_and_update_churn.
  destruct f; oth.
Qed.
Lemma others_slash f i wb : pres (others i) (slash_validator E f i wb).
Proof. unfold slash_validator, decrease_balance, increase_balance. oth. apply others_exit. Qed.
Lemma slash_sets f i wb s s' : slash_validator E f i wb s = (Ok tt, s') ->
  exists v, nthN (validators s') i = Some v /\ v_slashed v = true.
Proof.
  intros H. unfold slash_validator in H. sinv H.
  unfold mod_validator in *.
  repeat match goal with
  | H : increase_balance _ _ _ ?a = (Ok _, ?b) |- _ => assert (validators b = validators a) by (unfold increase_balance in H; sinv H; gs; reflexivity); clear H
  | H : decrease_balance _ _ _ ?a = (Ok _, ?b) |- _ => assert (validators b = validators a) by (unfold decrease_balance in H; sinv H; gs; reflexivity); clear H
  end.
  match goal with
  | A : sbind _ _ ?a = (Ok _, ?b), B : sbind _ _ ?b = (Ok _, ?c) |- _ =>
    apply sbind_ok_inv in A as (va & ? & Ha1 & Ha2); apply inv_rd in Ha1 as [Ha1 ->]; apply inv_md in Ha2; subst b;
    apply sbind_ok_inv in B as (vb & ? & Hb1 & Hb2); apply inv_rd in Hb1 as [Hb1 ->]; apply inv_md in Hb2; subst c
  end.
  apply idx_ok in Ha1. gsh Hb1. apply idx_ok in Hb1. rewrite nthN_updN_eq in Hb1 by (eapply nthN_some; eauto). injection Hb1 as <-.
  repeat match goal with X : validators ?b = _ |- _ => match goal with |- context [validators b] => rewrite X end end.
  gs. eexists. split; [apply nthN_updN_eq; rewrite lenN_updN; eapply nthN_some; eauto|]. gs. reflexivity.
Qed.

(** ** attester slashing *)
Lemma attester_checks_iff op s l : attester_slashing_checks E op s = Ok l <->
  attester_slashing_proven E s op /\ l = sorted_intersection (ia_attesting_indices (as_1 op)) (ia_attesting_indices (as_2 op)).
Proof.
  unfold attester_slashing_checks, attester_slashing_proven. split.
  - intros H. rinv H. apply slashable_data_spec in H0. destruct x0, x1. apply valid_indexed_iff in H1, H2. subst l. auto.
  - intros ((H0 & H1 & H2) & ->). rewrite run_require by (apply slashable_data_spec; exact H0).
    rewrite (run_r _ _ tt) by (apply valid_indexed_iff; exact H1). rewrite (run_r _ _ tt) by (apply valid_indexed_iff; exact H2). reflexivity.
Qed.
Lemma In_sorted_intersection i a b : In i (sorted_intersection a b) <-> In i a /\ In i b.
Proof. unfold sorted_intersection. rewrite In_isort, In_dedupN, filter_In, memN_true. reflexivity. Qed.
Lemma sorted_sorted_intersection a b : StronglySorted N.lt (sorted_intersection a b).
Proof. apply isort_strict, NoDup_dedupN. Qed.
Lemma StronglySorted_NoDup l : StronglySorted N.lt l -> NoDup l.
Proof.
  intros H. induction H as [|x l H IH Hx]; constructor; [|exact IH]. intros Hin. rewrite Forall_forall in Hx. specialize (Hx x Hin). lia.
Qed.
Definition slashable_ix (s : BeaconState) (i : N) : bool :=
  match nthN (validators s) i with Some v => is_slashable_validator v (epoch_of E s) | None => false end.
Lemma slash_loop f (cur : N) : forall l s b, NoDup l -> (forall i, In i l -> i < lenN (validators s)) -> cur = epoch_of E s ->
  sfold (fun b i => let* v := rd (fun s => idx (validators s) i) in
        if is_slashable_validator v cur then slash_validator E f i None ;; sret true else sret b) l b s
  = sbind (sfor (filter (slashable_ix s) l) (fun i => slash_validator E f i None))
      (fun _ => sret (match filter (slashable_ix s) l with [] => b | _ => true end)) s.
Proof.
  induction l as [|i l IH]; intros s b Hnd Hin Hcur; [reflexivity|]. cbn [sfold filter].
  inversion Hnd as [|? ? Hni Hnd']; subst. destruct (nthN_lt _ _ (Hin i (or_introl eq_refl))) as [v Hv].
  assert (Hsx : slashable_ix s i = is_slashable_validator v (epoch_of E s)) by (unfold slashable_ix; rewrite Hv; reflexivity).
  rewrite sbind_assoc. rewrite (run_rd _ _ _ v) by (apply idx_ok; exact Hv). rewrite Hsx. destruct (is_slashable_validator v (epoch_of E s)).
  - cbn [sfor]. rewrite !sbind_assoc. unfold sbind at 1. symmetry. unfold sbind at 1. symmetry. pose proof (others_slash f i None s) as Ho. destruct (slash_validator E f i None s) as [[[]| | |] s1]; try reflexivity.
    cbn [snd] in Ho. destruct Ho as (O1 & O2 & O3). rewrite run_ret.
    rewrite IH; [|exact Hnd'|intros j Hj; rewrite O1; apply Hin; right; exact Hj|unfold epoch_of; rewrite O2; reflexivity].
    assert (Hfe : filter (slashable_ix s1) l = filter (slashable_ix s) l).
    { apply filter_ext_in. intros j Hj. unfold slashable_ix, epoch_of. rewrite O2, O3 by (intros ->; contradiction). reflexivity. }
    rewrite Hfe. unfold sbind. destruct (sfor _ _ s1) as [[]]; try reflexivity. destruct (filter (slashable_ix s) l); reflexivity.
  - rewrite run_ret. apply IH; [exact Hnd'|intros j Hj; apply Hin; right; exact Hj|reflexivity].
Qed.
Lemma slash_all f : forall l s s', NoDup l -> sfor l (fun i => slash_validator E f i None) s = (Ok tt, s') ->
  lenN (validators s') = lenN (validators s) /\
  forall i v v', nthN (validators s) i = Some v -> nthN (validators s') i = Some v' ->
     (In i l -> v_slashed v' = true) /\ (~ In i l -> v' = v).
Proof.
  induction l as [|j l IH]; intros s s' Hnd H; cbn [sfor] in H.
  - apply inv_ret in H as [_ ->]. split; [reflexivity|]. intros i v v' H1 H2. split; [intros []|congruence].
  - inversion Hnd as [|? ? Hni Hnd']; subst. apply sbind_ok_inv in H as ([] & s1 & H1 & H2).
    pose proof (others_slash f j None s) as (O1 & _ & O3). rewrite H1 in O1, O3. cbn [snd] in O1, O3.
    destruct (IH s1 s' Hnd' H2) as [L1 L2]. split; [congruence|]. intros i v v' Hi Hi'.
    destruct (nthN_lt (validators s1) i) as [v1 Hv1]; [rewrite O1; eapply nthN_some; eauto|].
    destruct (L2 i v1 v' Hv1 Hi') as [La Lb]. split.
    + intros [<-|Hin]; [|auto]. destruct (slash_sets _ _ _ _ _ H1) as (w & Hw & Hws). assert (w = v1) by congruence. subst w.
      rewrite (Lb Hni). exact Hws.
    + intros Hnin. rewrite Lb by (intros Hx; apply Hnin; right; exact Hx). rewrite O3 in Hv1 by (intros ->; apply Hnin; left; reflexivity). congruence.
Qed.
Lemma proven_in_range s op i : attester_slashing_proven E s op -> In i (ia_attesting_indices (as_1 op)) -> i < lenN (validators s).
Proof.
  intros (_ & (_ & _ & pks & _ & _ & H & _) & _) Hi. revert Hi. induction H as [|a b la lb (v & Hv & _) H IH]; intros []; [subst; eapply nthN_some; eauto|auto].
Qed.
Lemma culpable_filter s op i : attester_slashing_proven E s op ->
  In i (filter (slashable_ix s) (sorted_intersection (ia_attesting_indices (as_1 op)) (ia_attesting_indices (as_2 op)))) <-> culpable E s op i.
Proof.
  intros _. rewrite filter_In, In_sorted_intersection. unfold culpable, slashable_ix. split.
  - intros [[H1 H2] H3]. split; [exact H1|]. split; [exact H2|]. destruct (nthN (validators s) i) as [v|]; [|discriminate].
    exists v. split; [reflexivity|]. apply slashable_in_iff. exact H3.
  - intros (H1 & H2 & v & Hv & Hs). rewrite Hv. apply slashable_in_iff in Hs. auto.
Qed.
Lemma sorted_unique l k : StronglySorted N.lt l -> StronglySorted N.lt k -> (forall i, In i l <-> In i k) -> l = k.
Proof.
  intros Hl. revert k. induction Hl as [|x l Hl IH Hx]; intros k Hk Hi.
  - destruct k as [|y k]; [reflexivity|]. exfalso. apply (Hi y). left; reflexivity.
  - destruct Hk as [|y k Hk Hy]; [exfalso; apply (Hi x); left; reflexivity|]. rewrite Forall_forall in Hx, Hy.
    assert (x = y) as ->.
    { destruct (proj1 (Hi x) (or_introl eq_refl)) as [<-|H1]; [reflexivity|]. destruct (proj2 (Hi y) (or_introl eq_refl)) as [->|H2]; [reflexivity|].
      specialize (Hx y H2). specialize (Hy x H1). lia. }
    f_equal. apply IH; [exact Hk|]. intros i. split; intros H.
    + destruct (proj1 (Hi i) (or_intror H)) as [<-|H']; [|exact H']. specialize (Hx y H). lia.
    + destruct (proj2 (Hi i) (or_intror H)) as [<-|H']; [|exact H']. specialize (Hy y H). lia.
Qed.
Lemma attester_slashing_run f op s l : attester_slashing_proven E s op -> StronglySorted N.lt l -> (forall i, In i l <-> culpable E s op i) ->
  process_attester_slashing E f op s =
  sbind (sfor l (fun i => slash_validator E f i None)) (fun _ => lift (require (match l with [] => false | _ => true end) EASNoSlashings)) s.
Proof.
  intros Hp Hl Hi. unfold process_attester_slashing.
  rewrite (run_rd _ _ _ (sorted_intersection (ia_attesting_indices (as_1 op)) (ia_attesting_indices (as_2 op)))) by (apply attester_checks_iff; auto).
  rewrite (run_rd _ _ _ _ (current_epoch_ok E Hctx s)).
  assert (Hlf : filter (slashable_ix s) (sorted_intersection (ia_attesting_indices (as_1 op)) (ia_attesting_indices (as_2 op))) = l).
  { apply sorted_unique; [apply filter_sorted, sorted_sorted_intersection|exact Hl|]. intros i. rewrite culpable_filter by exact Hp. symmetry. apply Hi. }
  unfold sbind at 1. rewrite slash_loop.
  - rewrite Hlf. unfold sbind. destruct (sfor _ _ s) as [[]]; try reflexivity.
  - apply StronglySorted_NoDup, sorted_sorted_intersection.
  - intros i H. apply In_sorted_intersection in H as [H _]. eapply proven_in_range; eauto.
  - reflexivity.
Qed.

(** ** voluntary exit *)
Lemma pending_balance_ok s i : pending_balance_of s i < 2 ^ 64 -> get_pending_balance_to_withdraw E s i = Ok (pending_balance_of s i).
Proof.
  unfold get_pending_balance_to_withdraw, pending_balance_of. set (l := filter _ _). clearbody l.
  assert (H : forall a, a + sumN (map ppw_amount l) < 2 ^ 64 -> rfold (fun acc w => add E acc (ppw_amount w)) l a = Ok (a + sumN (map ppw_amount l))).
  { induction l as [|w l IH]; intros a Ha; cbn [rfold map] in *; [change (sumN []) with 0; f_equal; lia|]. rewrite sumN_cons in *.
    unfold add at 1. rewrite uadd_ok by (pows; lia). cbn [rbind]. rewrite IH by lia. f_equal. lia. }
  intros Hl. rewrite H by lia. f_equal.
Qed.
Lemma voluntary_exit_checks_iff f op s i :
  (forall v, nthN (validators s) (ve_validator_index (sve_message op)) = Some v -> v_activation_eligibility_epoch v + SHARD_COMMITTEE_PERIOD E < 2 ^ 64) ->
  (f = Electra -> pending_balance_of s (ve_validator_index (sve_message op)) < 2 ^ 64) ->
  voluntary_exit_checks E f op s = Ok i <-> voluntary_exit_valid E f s op /\ i = ve_validator_index (sve_message op).
Proof.
  intros Hov Hpb. unfold voluntary_exit_checks, voluntary_exit_valid. set (x := sve_message op) in *.
  assert (Hdom : forall d, (if fork_le Deneb f
                  then compute_domain E DVoluntaryExit (Some (CAPELLA_FORK_VERSION E)) (Some (genesis_validators_root s))
                  else get_domain E s DVoluntaryExit (Some (ve_epoch x))) = Ok d <-> is_domain E [4; 0; 0; 0] (exit_domain_version E f s (ve_epoch x)) (genesis_validators_root s) d).
  { intros d. destruct f; cbn [fork_le fork_num exit_domain_version]; first [apply (get_domain_some E s DVoluntaryExit)|apply (compute_domain_ok E DVoluntaryExit)]. }
  assert (Hpend : (match f with
             | Electra =>
               let! p := get_pending_balance_to_withdraw E s (ve_validator_index x) in
               require (p =? 0) EVENonZeroPendingBalanceToWithdraw
             | _ => Ok tt
             end = Ok tt) <-> (f = Electra -> pending_balance_of s (ve_validator_index x) = 0)).
  { destruct f; try (split; [intros _ Hf; discriminate|reflexivity]). rewrite pending_balance_ok by auto. cbn [rbind]. rewrite require_ok, N.eqb_eq.
    split; [auto|intros H; auto]. }
  split.
  - intros H. apply rbind_ok_inv in H as (v & Hv & H). apply getN_ok in Hv. apply rbind_ok_inv in H as (cur & Hcur & H).
    rewrite current_epoch_ok in Hcur by exact Hctx. apply Ok_inj in Hcur. subst cur.
    apply rbind_ok_inv in H as (u1 & Ha & H). apply require_ok in Ha. apply active_spec in Ha.
    apply rbind_ok_inv in H as (u2 & Hx & H). apply require_ok in Hx. apply N.eqb_eq in Hx.
    apply rbind_ok_inv in H as (u3 & He & H). apply require_ok in He. apply N.leb_le in He.
    apply rbind_ok_inv in H as (mt & Hm & H). unfold add in Hm. rewrite uadd_ok in Hm by (specialize (Hov v Hv); pows; exact Hov). apply Ok_inj in Hm. subst mt.
    apply rbind_ok_inv in H as (u4 & Ht & H). apply require_ok in Ht. apply N.leb_le in Ht.
    apply rbind_ok_inv in H as (u5 & Hp & H). destruct u5. pose proof (proj1 Hpend Hp) as Hp'. clear Hp.
    apply rbind_ok_inv in H as (d & Hd & H). apply Hdom in Hd.
    apply rbind_ok_inv in H as (u6 & Hs & H). destruct u6. apply map_err_ok in Hs. apply verify_signed_data_ok in Hs as (root & Hs1 & Hs2).
    apply Ok_inj in H. split; [|congruence]. exists v. repeat (split; [assumption|]). exists d, root. auto.
  - intros ((v & Hv & Ha & Hx & He & Ht & Hp & d & root & Hd & Hs1 & Hs2) & ->).
    rewrite (run_r _ _ v) by (apply getN_ok; exact Hv). rewrite (run_r _ _ _ (current_epoch_ok E Hctx s)).
    rewrite run_require by (apply active_spec; exact Ha). rewrite run_require by (apply N.eqb_eq; exact Hx). rewrite run_require by (apply N.leb_le; exact He).
    rewrite (run_r _ _ _ (uadd_ok (chk E) _ _ ltac:(specialize (Hov v Hv); pows; exact Hov))).
    rewrite run_require by (apply N.leb_le; exact Ht). rewrite (run_r _ _ tt) by (apply Hpend; exact Hp). rewrite (run_r _ _ d) by (apply Hdom; exact Hd).
    rewrite (run_r _ _ tt) by (apply map_err_ok, verify_signed_data_ok; eauto). reflexivity.
Qed.
End WithEnv.
