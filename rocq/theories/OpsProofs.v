(** * Proofs about block operations (proof file; no model definitions) *)
From Verif Require Import Base BaseLemmas Types Ctx Env Helpers HelpersAltair HelpersElectra Block Epoch Transition StLemmas
  SpecCommon SpecShuffle SpecHelpers SpecOps HelperProofs HelperProofs2.
From Coq Require Import Sorted Permutation.

(** ** Guards: [let* x := rd checks in k x] *)
Lemma guard_rejects {A B} (g : BeaconState -> res A) (k : A -> St BeaconState B) s :
  is_ok (g s) = false -> rejected (sbind (rd g) k) s.
Proof. intros H. unfold rejected, sbind, rd. destruct (g s); cbn in *; [discriminate|split; reflexivity..]. Qed.
Lemma not_ok {A} (r : res A) : (forall a, r <> Ok a) -> is_ok r = false.
Proof. destruct r; intros H; cbn; [exfalso; eapply H; reflexivity|reflexivity..]. Qed.

(** ** The proposer depends only on the slot, the mixes and who is active with which effective balance *)
Lemma active_from_ext e : forall vs vs' i, Forall2 (fun v v' => is_active_validator v e = is_active_validator v' e) vs vs' ->
  active_from vs i e = active_from vs' i e.
Proof. intros vs vs' i H. revert i. induction H as [|v v' vs vs' H1 H2 IH]; intros i; cbn [active_from]; [reflexivity|]. rewrite H1, IH. reflexivity. Qed.
Lemma Forall2_nth {A B} (P : A -> B -> Prop) l k : Forall2 P l k <-> lenN l = lenN k /\ (forall i a b, nthN l i = Some a -> nthN k i = Some b -> P a b).
Proof.
  split.
  - intros H. induction H as [|x y l k Hp H [IH1 IH2]]; [split; [reflexivity|intros i a b Ha; discriminate]|].
    split; [rewrite !lenN_cons; lia|]. intros i a b. rewrite !nthN_cons. destruct (i =? 0); [intros [= <-] [= <-]; exact Hp|apply IH2].
  - revert k; induction l as [|x l IH]; intros [|y k] [Hl Hn]; rewrite ?lenN_cons, ?lenN_nil in Hl; try lia; [constructor|].
    constructor; [apply (Hn 0); reflexivity|]. apply IH. split; [lia|]. intros i a b Ha Hb. apply (Hn (i + 1)); rewrite nthN_succ; assumption.
Qed.
Definition same_duties (E : Env) (s s' : BeaconState) : Prop :=
  slot s' = slot s /\ randao_mixes s' = randao_mixes s
  /\ Forall2 (fun v v' => v_effective_balance v' = v_effective_balance v
                /\ is_active_validator v' (epoch_of E s) = is_active_validator v (epoch_of E s)) (validators s) (validators s').
Lemma same_duties_refl E s : same_duties E s s.
Proof. split; [reflexivity|]. split; [reflexivity|]. generalize (epoch_of E s). induction (validators s); constructor; auto. Qed.
Lemma Forall2_trans' {A} (R : A -> A -> Prop) : (forall a b c, R a b -> R b c -> R a c) -> forall l k m, Forall2 R l k -> Forall2 R k m -> Forall2 R l m.
Proof. intros Ht l k m H. revert m. induction H; intros m Hm; inversion Hm; subst; constructor; eauto. Qed.
Lemma same_duties_trans E a b c : same_duties E a b -> same_duties E b c -> same_duties E a c.
Proof.
  intros (A1 & A2 & A3) (B1 & B2 & B3). split; [congruence|]. split; [congruence|]. eapply Forall2_trans'; [|exact A3|].
  - cbv beta. intros x y z [X1 X2] [Y1 Y2]. split; congruence.
  - unfold epoch_of in *. rewrite A1 in B3. exact B3.
Qed.
Lemma proposer_loop_ext E s s' seed : (forall i, option_map v_effective_balance (nthN (validators s') i) = option_map v_effective_balance (nthN (validators s) i)) ->
  forall cand n r, proposer_loop E n s' seed cand r = proposer_loop E n s seed cand r.
Proof.
  intros H cand n. induction n as [|n IH]; intros r; cbn [proposer_loop]; [reflexivity|].
  destruct (cand r) as [c| | |]; cbn [rbind]; try reflexivity.
  assert (Hs : sample_proposer_index E s' c r seed = sample_proposer_index E s c r seed).
  { unfold sample_proposer_index. destruct (idx (hash E _) _) as [rb| | |]; cbn [rbind]; try reflexivity. unfold idx. specialize (H c).
    destruct (nthN (validators s') c) as [v'|], (nthN (validators s) c) as [v|]; cbn [option_map] in H; try discriminate; [|reflexivity].
    injection H as H. cbn [rbind]. cbn [expect rbind]. rewrite H. reflexivity. }
  rewrite Hs. destruct (sample_proposer_index E s c r seed) as [[]| | |]; cbn [rbind]; try reflexivity. apply IH.
Qed.
Lemma proposer_ext (E : Env) s s' : ctx_sane E -> same_duties E s s' -> get_beacon_proposer_index E s' = get_beacon_proposer_index E s.
Proof.
  intros Hc (H1 & H2 & H3). unfold get_beacon_proposer_index. unfold get_current_epoch. rewrite H1.
  pose proof (current_epoch_ok E Hc s) as He. unfold get_current_epoch in He. rewrite He. cbn [rbind].
  assert (Hseed : get_seed E s' (epoch_of E s) DBeaconProposer = get_seed E s (epoch_of E s) DBeaconProposer).
  { unfold get_seed, get_randao_mix. rewrite H2. reflexivity. }
  rewrite Hseed. destruct (get_seed E s (epoch_of E s) DBeaconProposer); cbn [rbind]; try reflexivity.
  assert (Ha : get_active_validator_indices s' (epoch_of E s) = get_active_validator_indices s (epoch_of E s)).
  { unfold get_active_validator_indices. symmetry. apply active_from_ext. eapply Forall2_impl; [|exact H3]. cbv beta. intros; intuition congruence. }
  rewrite Ha. unfold compute_proposer_index. destruct (get_active_validator_indices s (epoch_of E s)); [reflexivity|].
  assert (Hb : forall i, option_map v_effective_balance (nthN (validators s') i) = option_map v_effective_balance (nthN (validators s) i)).
  { intros i. apply Forall2_nth in H3 as [Hl Hn]. destruct (nthN (validators s) i) as [v|] eqn:Hv.
    - pose proof (nthN_some _ _ _ Hv) as Hlt. rewrite Hl in Hlt. destruct (nthN_lt _ _ Hlt) as [v' Hv']. rewrite Hv'. cbn. f_equal.
      apply (Hn i v v' Hv Hv').
    - apply nthN_none in Hv. rewrite Hl in Hv. apply nthN_none in Hv. rewrite Hv. reflexivity. }
  destruct (feat_shuffling E).
  - destruct (compute_shuffled_indices E _ _); cbn [rbind]; try reflexivity. apply proposer_loop_ext. exact Hb.
  - apply proposer_loop_ext. exact Hb.
Qed.
Lemma same_duties_fields E s s' : slot s' = slot s -> randao_mixes s' = randao_mixes s -> validators s' = validators s -> same_duties E s s'.
Proof. intros H1 H2 H3. split; [exact H1|]. split; [exact H2|]. rewrite H3. clear. generalize (epoch_of E s). induction (validators s); constructor; auto. Qed.
Lemma same_duties_upd E s i v v' : nthN (validators s) i = Some v -> v_effective_balance v' = v_effective_balance v ->
  is_active_validator v' (epoch_of E s) = is_active_validator v (epoch_of E s) ->
  same_duties E s (set_validators (updN (validators s) i v') s).
Proof.
  intros Hv He Ha. split; [gs; reflexivity|]. split; [gs; reflexivity|]. gs. apply Forall2_nth. split; [symmetry; apply lenN_updN|].
  intros j a b Hj. rewrite nthN_updN. destruct ((j =? i) && (i <? lenN (validators s))) eqn:Hji.
  - apply andb_true_iff in Hji as [Hji _]. apply N.eqb_eq in Hji. subst j. intros [= <-]. assert (a = v) by congruence. subst a. auto.
  - intros Hb. assert (a = b) by congruence. subst b. auto.
Qed.

(** ** Proposer slashing *)
Section WithEnv.
Variable E : Env.
Hypothesis Hctx : ctx_sane E.

Lemma slashable_in_iff s v : is_slashable_validator v (epoch_of E s) = true <-> slashable_in E s v.
Proof. apply slashable_spec. Qed.
Lemma epoch_at_ok sl : compute_epoch_at_slot E sl = Ok (sl / SLOTS_PER_EPOCH E).
Proof. apply epoch_at_slot_ok. exact Hctx. Qed.

Lemma proposer_slashing_checks_iff op s i :
  proposer_slashing_checks E op s = Ok i <-> proposer_slashing_valid E s op /\ i = bh_proposer_index (sbh_message (ps_1 op)).
Proof.
  unfold proposer_slashing_checks, proposer_slashing_valid. set (h1 := sbh_message (ps_1 op)). set (h2 := sbh_message (ps_2 op)).
  split.
  - intros H. rinv H. apply N.eqb_eq in H0. apply N.eqb_eq in H1. apply negb_true_iff in H2. apply eqb_dec_false in H2.
    rewrite current_epoch_ok in H4 by exact Hctx. apply Ok_inj in H4. subst. rewrite epoch_at_ok in H6. apply Ok_inj in H6. subst.
    split; [|reflexivity]. split; [exact H0|]. split; [exact H1|]. split; [exact H2|].
    eexists. split; [exact H3|]. split; [apply slashable_in_iff; exact H5|].
    split; (apply (signed_by_iff E s DBeaconProposer)); eexists; split; try eassumption.
    + destruct x7; assumption.
    + destruct x8; assumption.
  - intros ((A1 & A2 & A3 & v & Hv & Hs & S1 & S2) & ->).
    rewrite run_require by (apply N.eqb_eq; exact A1). rewrite run_require by (apply N.eqb_eq; exact A2).
    rewrite run_require by (apply negb_true_iff, eqb_dec_false; exact A3).
    rewrite (run_r _ _ v) by (apply getN_ok; exact Hv). rewrite (run_r _ _ _ (current_epoch_ok E Hctx s)).
    rewrite run_require by (apply slashable_in_iff; exact Hs). rewrite (run_r _ _ _ (epoch_at_ok _)).
    apply (signed_by_iff E s DBeaconProposer) in S1 as (d & Hd & Hv1). apply (signed_by_iff E s DBeaconProposer) in S2 as (d' & Hd' & Hv2).
    assert (d' = d) by congruence. subst d'. rewrite (run_r _ _ _ Hd).
    rewrite (run_r _ _ tt) by (apply map_err_ok; exact Hv1). rewrite (run_r _ _ tt) by (apply map_err_ok; exact Hv2). reflexivity.
Qed.
End WithEnv.
