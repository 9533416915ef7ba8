(** * Proofs about the helpers, part 2 *)
From Verif Require Import Base BaseLemmas Types Env Helpers SpecCommon SpecShuffle SpecHelpers ShuffleProofs HelperProofs.
From Coq Require Import Permutation Sorted.

Ltac pows := change (2 ^ 16) with 65536 in *; change (2 ^ 12) with 4096 in *; change (2 ^ 8) with 256 in *; change (2 ^ 32) with 4294967296 in *;
  change (2 ^ 40) with 1099511627776 in *; change (2 ^ 44) with 17592186044416 in *; change (2 ^ 56) with 72057594037927936 in *;
  change (2 ^ 60) with 1152921504606846976 in *; change (2 ^ 62) with 4611686018427387904 in *; change (2 ^ 63) with 9223372036854775808 in *;
  rewrite ?U64_val, ?U64_MAX_val in *.
Ltac ctxs H := unfold ctx_sane in H; pows.

(** ** Predicates *)
Lemma slashable_data_spec a b : is_slashable_attestation_data a b = true <-> double_vote a b \/ surrounds a b.
Proof.
  unfold is_slashable_attestation_data, double_vote, surrounds, AttestationData_eqb.
  destruct (AttestationData_eq_dec a b) as [Heq|Hne]; cbn [negb andb orb].
  - rewrite andb_true_iff, !N.ltb_lt. intuition congruence.
  - rewrite orb_true_iff, andb_true_iff, N.eqb_eq, !N.ltb_lt. intuition.
Qed.
Lemma active_spec v e : is_active_validator v e = true <-> v_activation_epoch v <= e < v_exit_epoch v.
Proof. unfold is_active_validator. rewrite andb_true_iff, N.leb_le, N.ltb_lt. tauto. Qed.
Lemma slashable_spec v e :
  is_slashable_validator v e = true <-> v_slashed v = false /\ v_activation_epoch v <= e < v_withdrawable_epoch v.
Proof.
  unfold is_slashable_validator. rewrite !andb_true_iff, N.leb_le, N.ltb_lt, negb_true_iff. tauto.
Qed.
Lemma queue_eligible_spec E v :
  is_eligible_for_activation_queue E v = true <->
  v_activation_eligibility_epoch v = FAR_FUTURE_EPOCH /\ v_effective_balance v = MAX_EFFECTIVE_BALANCE E.
Proof. unfold is_eligible_for_activation_queue. rewrite andb_true_iff, !N.eqb_eq. tauto. Qed.
Lemma activatable_spec s v :
  is_eligible_for_activation s v = true <->
  v_activation_eligibility_epoch v <= cp_epoch (finalized_checkpoint s) /\ v_activation_epoch v = FAR_FUTURE_EPOCH.
Proof. unfold is_eligible_for_activation. rewrite andb_true_iff, N.leb_le, N.eqb_eq. tauto. Qed.

(** ** Domains and signatures *)
Lemma compute_domain_ok E d v g x :
  compute_domain E d (Some v) (Some g) = Ok x <-> is_domain E (domain_bytes d) v g x.
Proof.
  unfold compute_domain, compute_fork_data_root, htr_r, is_domain, slice_to, firstN.
  destruct (htr E (OForkData v g)) as [r|]; cbn [ok_or rbind].
  - destruct (N.leb_spec 28 (lenN r)); cbn [rbind]; change (N.to_nat 28) with 28%nat.
    + split; [intros [= <-]; eauto|intros (r' & [= <-] & _ & ->); reflexivity].
    + split; [discriminate|intros (r' & [= <-] & Hl & _); lia].
  - split; [discriminate|intros (r' & Hr & _); discriminate].
Qed.
Lemma get_domain_some E s d e x :
  get_domain E s d (Some e) = Ok x <-> is_domain E (domain_bytes d) (version_at s e) (genesis_validators_root s) x.
Proof. unfold get_domain. cbn [rbind]. apply compute_domain_ok. Qed.
Lemma get_domain_none (E : Env) s d x : ctx_sane E ->
  get_domain E s d None = Ok x <-> is_domain E (domain_bytes d) (version_at s (epoch_of E s)) (genesis_validators_root s) x.
Proof.
  intros Hc. unfold get_domain. rewrite current_epoch_ok by exact Hc. cbn [rbind]. apply compute_domain_ok.
Qed.
Lemma signing_root_ok E o d x : compute_signing_root E o d = Ok x <-> is_signing_root E o d x.
Proof.
  unfold compute_signing_root, is_signing_root, htr_r. destruct (htr E o) as [r|]; cbn [ok_or rbind].
  - rewrite ok_or_ok. split; [eauto|intros (r' & [= <-] & H); exact H].
  - split; [discriminate|intros (r' & Hr & _); discriminate].
Qed.
Lemma verify_signed_data_ok E o sig pk d :
  verify_signed_data E o sig pk d = Ok tt <-> exists root, is_signing_root E o d root /\ bls_verify E pk root sig = true.
Proof.
  unfold verify_signed_data. split.
  - intros H. apply rbind_ok_inv in H as [root [Hr Hv]]. apply signing_root_ok in Hr. apply require_ok in Hv. eauto.
  - intros (root & Hr & Hv). apply signing_root_ok in Hr. rewrite Hr. cbn [rbind]. apply require_ok. exact Hv.
Qed.
Lemma is_domain_fun E t v g x y : is_domain E t v g x -> is_domain E t v g y -> x = y.
Proof. intros (r & H1 & _ & ->) (r' & H2 & _ & ->). congruence. Qed.
Lemma signed_by_iff E s d e o pk sig :
  (exists dom, get_domain E s d (Some e) = Ok dom /\ verify_signed_data E o sig pk dom = Ok tt)
  <-> signed_by E s (domain_bytes d) e o pk sig.
Proof.
  unfold signed_by. split.
  - intros (dom & Hd & Hv). apply get_domain_some in Hd. apply verify_signed_data_ok in Hv as (root & H1 & H2). eauto 6.
  - intros (dom & root & Hd & H1 & H2). exists dom. split; [apply get_domain_some; exact Hd|].
    apply verify_signed_data_ok; eauto.
Qed.

(** ** Balances *)
Lemma effective_balance_of_some s i v : nthN (validators s) i = Some v -> effective_balance_of s i = v_effective_balance v.
Proof. intros H; unfold effective_balance_of; rewrite H; reflexivity. Qed.

Lemma total_fold s l acc :
  (forall i, In i l -> i < lenN (validators s)) -> acc < U64 ->
  rfold (fun acc i => let! v := idx (validators s) i in ok_or (cadd acc (v_effective_balance v)) EOverflow) l acc
  = if acc + effective_sum s l <? U64 then Ok (acc + effective_sum s l) else Err EOverflow.
Proof.
  revert acc; induction l as [|i l IH]; intros acc Hin Hacc; cbn [rfold].
  - unfold effective_sum; cbn. replace (acc + 0) with acc by lia. destruct (N.ltb_spec acc U64); [reflexivity|lia].
  - destruct (nthN_lt (validators s) i) as [v Hv]; [apply Hin; left; reflexivity|].
    pose proof Hv as Hv'. apply idx_ok in Hv'. rewrite Hv'. cbn [rbind].
    unfold effective_sum. cbn [map]. rewrite sumN_cons. fold (effective_sum s l).
    rewrite (effective_balance_of_some s i v Hv).
    destruct (cadd acc (v_effective_balance v)) as [x|] eqn:Hx; cbn [ok_or rbind].
    + apply cadd_some in Hx as [Hlt ->]. rewrite IH; [|intros; apply Hin; right; assumption|exact Hlt].
      replace (acc + v_effective_balance v + effective_sum s l) with (acc + (v_effective_balance v + effective_sum s l)) by lia.
      reflexivity.
    + apply cadd_none in Hx. destruct (N.ltb_spec (acc + (v_effective_balance v + effective_sum s l)) U64); [lia|reflexivity].
Qed.
Lemma get_total_balance_ok E s l :
  (forall i, In i l -> i < lenN (validators s)) ->
  get_total_balance E s l = if effective_sum s l <? U64 then Ok (N.max (effective_sum s l) (EFFECTIVE_BALANCE_INCREMENT E)) else Err EOverflow.
Proof.
  intros Hin. unfold get_total_balance. rewrite total_fold; [|exact Hin|reflexivity].
  rewrite N.add_0_l. destruct (effective_sum s l <? U64); reflexivity.
Qed.
Lemma get_total_balance_oob E s l t : get_total_balance E s l = Ok t -> forall i, In i l -> i < lenN (validators s).
Proof.
  unfold get_total_balance. intros H. apply rbind_ok_inv in H as [x [H _]]. revert H. generalize 0.
  induction l as [|j l IH]; intros acc H i Hi; [destruct Hi|]. cbn [rfold] in H.
  apply rbind_ok_inv in H as [y [H1 H2]]. apply rbind_ok_inv in H1 as [v [Hv _]]. apply idx_ok in Hv.
  destruct Hi as [->|Hi]; [eapply nthN_some; eauto|]. eapply IH; eauto.
Qed.
Lemma active_in_range s e i : In i (active_set s e) -> i < lenN (validators s).
Proof. intros H. apply In_active_set in H as (v & Hv & _). eapply nthN_some; eauto. Qed.
Definition total_active (E : Env) (s : BeaconState) : N :=
  N.max (effective_sum s (active_set s (epoch_of E s))) (EFFECTIVE_BALANCE_INCREMENT E).
Lemma get_total_active_balance_ok (E : Env) s : ctx_sane E ->
  get_total_active_balance E s =
  if effective_sum s (active_set s (epoch_of E s)) <? U64 then Ok (total_active E s) else Err EOverflow.
Proof.
  intros Hc. unfold get_total_active_balance. rewrite current_epoch_ok by exact Hc. cbn [rbind].
  rewrite get_active_ok. apply get_total_balance_ok. apply active_in_range.
Qed.

Lemma increase_balance_ok E s i d b :
  nthN (balances s) i = Some b -> b + d < U64 ->
  increase_balance E i d s = (Ok tt, set_balances (updN (balances s) i (b + d)) s).
Proof.
  intros Hb Hd. unfold increase_balance, sbind, rd, md. apply idx_ok in Hb. rewrite Hb. cbn [rbind].
  unfold add. rewrite uadd_ok by exact Hd. reflexivity.
Qed.
Lemma increase_balance_oob E s i d : lenN (balances s) <= i -> increase_balance E i d s = (Panic, s).
Proof.
  intros Hi. unfold increase_balance, sbind, rd. apply nthN_none in Hi. unfold idx. rewrite Hi. reflexivity.
Qed.
Lemma decrease_balance_ok E s i d b :
  nthN (balances s) i = Some b ->
  decrease_balance E i d s = (Ok tt, set_balances (updN (balances s) i (b - d)) s).
Proof.
  intros Hb. unfold decrease_balance, sbind, rd, md. apply idx_ok in Hb. rewrite Hb. cbn [rbind].
  destruct (N.ltb_spec b d).
  - replace (b - d) with 0 by lia. reflexivity.
  - unfold sub. rewrite usub_ok by lia. reflexivity.
Qed.
Lemma decrease_balance_oob E s i d : lenN (balances s) <= i -> decrease_balance E i d s = (Panic, s).
Proof.
  intros Hi. unfold decrease_balance, sbind, rd. apply nthN_none in Hi. unfold idx. rewrite Hi. reflexivity.
Qed.

(** ** Attesting indices *)
Lemma In_select_bits bits com v :
  In v (select_bits bits com) <-> exists k, nthN bits k = Some true /\ nthN com k = Some v.
Proof.
  revert com; induction bits as [|b bits IH]; intros com; cbn [select_bits].
  - split; [intros []|intros (k & Hk & _)]. cbn in Hk. discriminate.
  - destruct com as [|c com].
    + split; [intros []|intros (k & _ & Hk)]. cbn in Hk. discriminate.
    + assert (Hstep : (exists k, nthN (b :: bits) k = Some true /\ nthN (c :: com) k = Some v)
         <-> (b = true /\ c = v) \/ (exists k, nthN bits k = Some true /\ nthN com k = Some v)).
      { split.
        - intros (k & H1 & H2). rewrite nthN_cons in H1. rewrite nthN_cons in H2. destruct (k =? 0) eqn:Hk; [left; split; congruence|right; eauto].
        - intros [[-> ->]|(k & H1 & H2)]; [exists 0; auto|]. exists (k + 1). rewrite !nthN_succ. auto. }
      rewrite Hstep. destruct b; cbn [In]; rewrite IH; intuition congruence.
Qed.
Lemma get_attesting_indices_ok E s d bits com :
  get_beacon_committee E s (ad_slot d) (ad_index d) = Ok com ->
  get_attesting_indices E s d bits =
    if lenN bits =? lenN com then Ok (dedupN (select_bits bits com)) else Err EAttBitfield.
Proof. intros H. unfold get_attesting_indices. rewrite H. cbn [rbind]. destruct (lenN bits =? lenN com); reflexivity. Qed.

(** ** Indexed attestations *)
Lemma check_sorted_ok p l d r : check_sorted p l d = Ok r ->
  StronglySorted N.le (p :: l) /\ (r = false <-> d = false /\ StronglySorted N.lt (p :: l)).
Proof.
  revert p d; induction l as [|x l IH]; intros p d H; cbn [check_sorted] in H.
  - injection H as <-. split; [repeat constructor|]. split; [intros ->; split; [reflexivity|repeat constructor]|tauto].
  - destruct (N.ltb_spec x p) as [|Hle]; [discriminate|]. apply IH in H as [Hs Hr].
    assert (Hall : Forall (N.le p) (x :: l)).
    { inversion Hs as [|? ? Hl Hf]; subst. constructor; [exact Hle|]. eapply Forall_impl; [|exact Hf]. simpl; intros; lia. }
    split; [constructor; assumption|]. rewrite Hr. rewrite orb_false_iff, N.eqb_neq. split.
    + intros [[-> Hne] Hl]. split; [reflexivity|]. constructor; [exact Hl|].
      inversion Hl as [|? ? _ Hf]; subst. constructor; [lia|]. eapply Forall_impl; [|exact Hf]. simpl; intros; lia.
    + intros [-> Hl]. inversion Hl as [|? ? Hl' Hf]; subst. inversion Hf; subst. repeat split; [lia|exact Hl'].
Qed.
Lemma check_sorted_strict p l : StronglySorted N.lt (p :: l) -> check_sorted p l false = Ok false.
Proof.
  revert p; induction l as [|x l IH]; intros p H; cbn [check_sorted]; [reflexivity|].
  inversion H as [|? ? Hl Hf]; subst. inversion Hf; subst. destruct (N.ltb_spec x p); [lia|].
  destruct (N.eqb_spec x p); [lia|]. cbn [orb]. apply IH. exact Hl.
Qed.

Lemma Forall2_impl {A B} (P Q : A -> B -> Prop) l k : (forall a b, P a b -> Q a b) -> Forall2 P l k -> Forall2 Q l k.
Proof. intros H; induction 1; constructor; auto. Qed.
Lemma pks_ok s l pks :
  rmap (fun i => let! v := getN (validators s) i EIdxInvalidIndex in Ok (v_public_key v)) l = Ok pks
  <-> Forall2 (fun i pk => exists v, nthN (validators s) i = Some v /\ pk = v_public_key v) l pks.
Proof.
  rewrite rmap_ok. split; intros H; (eapply Forall2_impl; [|exact H]); cbn beta; intros i pk.
  - intros Hb. apply rbind_ok_inv in Hb as [v [Hv [= <-]]]. apply getN_ok in Hv. eauto.
  - intros (v & Hv & ->). apply getN_ok with (e := EIdxInvalidIndex) in Hv. rewrite Hv. reflexivity.
Qed.

Lemma valid_indexed_iff E s ia :
  is_valid_indexed_attestation E s ia = Ok tt <->
  ia_attesting_indices ia <> [] /\ StronglySorted N.lt (ia_attesting_indices ia)
  /\ exists pks dom root,
       Forall2 (fun i pk => exists v, nthN (validators s) i = Some v /\ pk = v_public_key v) (ia_attesting_indices ia) pks
       /\ is_domain E [1; 0; 0; 0] (version_at s (cp_epoch (ad_target (ia_data ia)))) (genesis_validators_root s) dom
       /\ is_signing_root E (OAttestationData (ia_data ia)) dom root
       /\ fast_aggregate_verify_ok E pks root (ia_signature ia) = true.
Proof.
  unfold is_valid_indexed_attestation. destruct (ia_attesting_indices ia) as [|i0 rest] eqn:Hia.
  { split; [discriminate|intros [H _]; congruence]. }
  split.
  - intros H. apply rbind_ok_inv in H as [dups [Hd H]]. apply check_sorted_ok in Hd as [_ Hd].
    destruct dups; [discriminate|]. destruct Hd as [Hd _]. destruct (Hd eq_refl) as [_ Hs].
    apply rbind_ok_inv in H as [pks [Hp H]]. apply rbind_ok_inv in H as [dom [Hdom H]].
    apply rbind_ok_inv in H as [root [Hr H]]. apply require_ok in H.
    split; [discriminate|]. split; [exact Hs|]. exists pks, dom, root.
    split; [apply pks_ok; exact Hp|]. split; [apply get_domain_some in Hdom; exact Hdom|].
    split; [apply signing_root_ok; exact Hr|exact H].
  - intros (_ & Hs & pks & dom & root & Hp & Hdom & Hr & Hv).
    rewrite check_sorted_strict by exact Hs. cbn [rbind]. apply pks_ok in Hp. rewrite Hp. cbn [rbind].
    change [1; 0; 0; 0] with (domain_bytes DBeaconAttester) in Hdom. apply get_domain_some in Hdom.
    rewrite Hdom. cbn [rbind]. apply signing_root_ok in Hr. rewrite Hr. cbn [rbind]. apply require_ok. exact Hv.
Qed.

(** ** Proposer sampling *)
Section P.
Variable E : Env.
Hypothesis Hctx : ctx_sane E.
Hypothesis Hwf : hash_wf (hash E).

Lemma sample_ok s i r seed v :
  nthN (validators s) i = Some v -> v_effective_balance v <= 2 ^ 44 -> r < 2 ^ 60 ->
  sample_proposer_index E s i r seed =
  Ok (MAX_EFFECTIVE_BALANCE E * proposer_byte E seed r <=? effective_balance_of s i * 255).
Proof.
  intros Hv Hb Hr. unfold sample_proposer_index. rewrite idx_hash by (assumption || lia). cbn [rbind].
  apply idx_ok in Hv as Hv'. rewrite Hv'. cbn [rbind]. unfold mul. ctxs Hctx.
  rewrite umul_ok by (pows; lia). cbn [rbind].
  set (by_ := nth _ _ _).
  assert (Hby : by_ < 256).
  { unfold by_. destruct (Hwf (seed ++ to_le 8 (r / 32))) as [Hl Hf]. rewrite Forall_forall in Hf. apply Hf.
    apply nth_In. lia. }
  rewrite umul_ok by (pows; nia). cbn [rbind].
  rewrite (effective_balance_of_some s i v Hv). reflexivity.
Qed.

Lemma proposer_loop_spec s A seed cand n r0 :
  (forall i v, In i A -> nthN (validators s) i = Some v -> v_effective_balance v <= 2 ^ 44) ->
  (forall i, In i A -> i < lenN (validators s)) ->
  (forall r, exists i, cand r = Ok i /\ proposer_candidate E A seed r = Some i) ->
  r0 + N.of_nat n < 2 ^ 60 ->
  (forall r' i', r' < r0 -> proposer_candidate E A seed r' = Some i' -> ~ proposer_accepts E s seed i' r') ->
  (exists i r, proposer_loop E n s seed cand r0 = Ok i /\ r < r0 + N.of_nat n /\ first_accepted E s A seed r i)
  \/ (proposer_loop E n s seed cand r0 = Diverge /\
      forall r' i', r' < r0 + N.of_nat n -> proposer_candidate E A seed r' = Some i' -> ~ proposer_accepts E s seed i' r').
Proof.
  intros Hb Hin Hc. revert r0; induction n as [|n IH]; intros r0 Hr Hno; cbn [proposer_loop].
  - right. split; [reflexivity|]. intros r' i' Hlt. apply Hno. lia.
  - destruct (Hc r0) as (i & Hi & Hcand). rewrite Hi. cbn [rbind].
    assert (HiA : In i A) by (unfold proposer_candidate in Hcand; eapply nthN_In; eauto).
    destruct (nthN_lt (validators s) i (Hin i HiA)) as [v Hv].
    rewrite (sample_ok s i r0 seed v Hv) by (try (eapply Hb; eauto); lia). cbn [rbind].
    destruct (N.leb_spec (MAX_EFFECTIVE_BALANCE E * proposer_byte E seed r0) (effective_balance_of s i * 255)) as [Hacc|Hrej].
    + left. exists i, r0. split; [reflexivity|]. split; [lia|]. split; [exact Hcand|]. split; [exact Hacc|exact Hno].
    + destruct (IH (r0 + 1)) as [(i' & r & H1 & H2 & H3)|[H1 H2]].
      * lia.
      * intros r' i' Hlt Hc'. destruct (N.eq_dec r' r0) as [->|Hne].
        -- assert (i' = i) as -> by congruence. unfold proposer_accepts. lia.
        -- apply Hno; [lia|exact Hc'].
      * left. exists i', r. split; [exact H1|]. split; [lia|exact H3].
      * right. split; [exact H1|]. intros r' i' Hlt. apply H2. lia.
Qed.

Lemma compute_proposer_index_spec s A seed :
  A <> [] -> lenN A <= 2 ^ 40 ->
  (forall i v, In i A -> nthN (validators s) i = Some v -> v_effective_balance v <= 2 ^ 44) ->
  (forall i, In i A -> i < lenN (validators s)) -> N.of_nat (fuel E) < 2 ^ 60 ->
  (exists i r, compute_proposer_index E s A seed = Ok i /\ r < N.of_nat (fuel E) /\ first_accepted E s A seed r i)
  \/ (compute_proposer_index E s A seed = Diverge /\
      forall r' i', r' < N.of_nat (fuel E) -> proposer_candidate E A seed r' = Some i' -> ~ proposer_accepts E s seed i' r').
Proof.
  intros Hne Hlen Hb Hin Hf. destruct A as [|a0 A0] eqn:HA; [congruence|]. rewrite <- HA in *.
  assert (Hpos : 0 < lenN A) by (rewrite HA, lenN_cons; lia).
  assert (Hround : SHUFFLE_ROUND_COUNT E <= 256 /\ 0 < SHUFFLE_ROUND_COUNT E) by (ctxs Hctx; lia).
  assert (Hperm : forall r, perm E seed (lenN A) (r mod lenN A) = spec_shuffle (hash E) seed (lenN A) (SHUFFLE_ROUND_COUNT E) (r mod lenN A)).
  { intros r. apply perm_spec; [exact Hlen|apply Hround|apply N.mod_lt; lia]. }
  assert (Hcand : forall r, exists i, nthN A (perm E seed (lenN A) (r mod lenN A)) = Some i /\ proposer_candidate E A seed r = Some i).
  { intros r. destruct (nthN_lt A (perm E seed (lenN A) (r mod lenN A))) as [i Hi].
    - apply perm_lt. apply N.mod_lt; lia.
    - exists i. split; [exact Hi|]. unfold proposer_candidate. rewrite <- Hperm. exact Hi. }
  assert (Hunf : compute_proposer_index E s A seed =
    (if feat_shuffling E then
       let! sh := compute_shuffled_indices E A seed in
       proposer_loop E (fuel E) s seed (fun round => idx sh (round mod lenN A)) 0
     else proposer_loop E (fuel E) s seed
            (fun round => let! si := compute_shuffled_index E (round mod lenN A) (lenN A) seed in idx A si) 0)).
  { rewrite HA. reflexivity. }
  rewrite Hunf. clear Hunf.
  assert (Hlen63 : lenN A < 2 ^ 63) by (pows; lia).
  destruct (feat_shuffling E).
  - destruct (compute_shuffled_indices_ok E Hwf seed A (proj2 Hround) Hlen63) as (l' & H1 & H2 & H3).
    rewrite H1. cbn [rbind].
    destruct (proposer_loop_spec s A seed (fun round => idx l' (round mod lenN A)) (fuel E) 0) as [H|H]; auto.
    + intros r. destruct (Hcand r) as (i & Hi & Hc). exists i. split; [|exact Hc]. apply idx_ok.
      rewrite H3 by (apply N.mod_lt; lia). exact Hi.
    + intros; lia.
  - destruct (proposer_loop_spec s A seed
      (fun round => let! si := compute_shuffled_index E (round mod lenN A) (lenN A) seed in idx A si) (fuel E) 0) as [H|H]; auto.
    + intros r. destruct (Hcand r) as (i & Hi & Hc). exists i. split; [|exact Hc].
      rewrite compute_shuffled_index_ok; [|assumption|pows; lia|apply N.mod_lt; lia].
      cbn [rbind]. apply idx_ok. exact Hi.
    + intros; lia.
Qed.

(** ** Exit queue *)
Lemma fold_max_ge0 l d : d <= fold_left N.max l d.
Proof. revert d; induction l as [|y l IH]; intros d; cbn [fold_left]; [lia|]. specialize (IH (N.max d y)). lia. Qed.
Lemma fold_max_ge l d x : x = d \/ In x l -> x <= fold_left N.max l d.
Proof.
  intros [->|H]; [apply fold_max_ge0|]. revert d; induction l as [|y l IH]; intros d; [destruct H|]. cbn [fold_left].
  destruct H as [->|H]; [|apply IH; exact H]. pose proof (fold_max_ge0 l (N.max d x)). lia.
Qed.
Lemma fold_max_in l d : fold_left N.max l d = d \/ In (fold_left N.max l d) l.
Proof.
  revert d; induction l as [|y l IH]; intros d; cbn [fold_left]; [left; reflexivity|].
  destruct (IH (N.max d y)) as [H|H]; [|right; right; exact H].
  rewrite H. destruct (N.max_spec d y) as [[_ ->]|[_ ->]]; [right; left; reflexivity|left; reflexivity].
Qed.

(** the queue epoch before the churn check *)
Definition queue_head s : N :=
  maxN (map v_exit_epoch (filter (fun v => negb (v_exit_epoch v =? FAR_FUTURE_EPOCH)) (validators s))) (earliest_exit E s).
Lemma queue_head_ge s v : In v (validators s) -> v_exit_epoch v <> FAR_FUTURE_EPOCH -> v_exit_epoch v <= queue_head s.
Proof.
  intros Hv Hne. apply fold_max_ge. right. apply in_map. apply filter_In. split; [exact Hv|].
  apply negb_true_iff, N.eqb_neq. exact Hne.
Qed.
Lemma queue_head_earliest s : earliest_exit E s <= queue_head s.
Proof. apply fold_max_ge. left; reflexivity. Qed.
Lemma queue_head_lt s B : exits_below s B -> earliest_exit E s < B -> queue_head s < B.
Proof.
  intros Hb He. unfold queue_head, maxN. destruct (fold_max_in (map v_exit_epoch (filter (fun v => negb (v_exit_epoch v =? FAR_FUTURE_EPOCH)) (validators s))) (earliest_exit E s)) as [->|Hin]; [exact He|].
  apply in_map_iff in Hin as (v & <- & Hv). apply filter_In in Hv as [Hv Hn]. apply Hb; [exact Hv|].
  apply negb_true_iff, N.eqb_neq in Hn. exact Hn.
Qed.
Definition next_exit s : N := if churn_limit E s <=? exits_at s (queue_head s) then queue_head s + 1 else queue_head s.

Lemma earliest_ok s : slot_small s -> compute_activation_exit_epoch E (epoch_of E s) = Ok (earliest_exit E s).
Proof.
  intros Hs. pose proof (epoch_small E Hctx s Hs) as He. unfold compute_activation_exit_epoch, earliest_exit, add.
  ctxs Hctx. rewrite uadd_ok by (pows; lia). cbn [rbind]. apply uadd_ok. pows; lia.
Qed.
Lemma churn_limit_ok s : get_validator_churn_limit E s = Ok (churn_limit E s).
Proof.
  unfold get_validator_churn_limit. rewrite current_epoch_ok by exact Hctx. cbn [rbind]. rewrite get_active_ok.
  rewrite udiv_ok by (ctxs Hctx; lia). reflexivity.
Qed.
Lemma exit_queue_epoch_ok s : slot_small s -> queue_head s < 2 ^ 63 -> exit_queue_epoch E s = Ok (next_exit s).
Proof.
  intros Hs Hq. unfold exit_queue_epoch. rewrite current_epoch_ok by exact Hctx. cbn [rbind].
  rewrite earliest_ok by exact Hs. cbn [rbind]. rewrite churn_limit_ok. cbn [rbind].
  fold (queue_head s). fold (exits_at s (queue_head s)). unfold next_exit.
  destruct (churn_limit E s <=? exits_at s (queue_head s)); [|reflexivity].
  unfold add. apply uadd_ok. pows; lia.
Qed.

Lemma mod_validator_ok s i g v : nthN (validators s) i = Some v ->
  mod_validator i g s = (Ok tt, set_validators (updN (validators s) i (g v)) s).
Proof. intros H. unfold mod_validator, sbind, rd, md. apply idx_ok in H. rewrite H. reflexivity. Qed.

Lemma initiate_exit_noop s i v :
  nthN (validators s) i = Some v -> v_exit_epoch v <> FAR_FUTURE_EPOCH -> initiate_validator_exit E i s = (Ok tt, s).
Proof.
  intros Hv Hne. unfold initiate_validator_exit, sbind, rd. apply idx_ok in Hv. rewrite Hv.
  destruct (N.eqb_spec (v_exit_epoch v) FAR_FUTURE_EPOCH); [contradiction|]. reflexivity.
Qed.
Definition exited (q : N) (v : Validator) : Validator :=
  set_v_withdrawable_epoch (q + MIN_VALIDATOR_WITHDRAWABILITY_DELAY E) (set_v_exit_epoch q v).
Lemma initiate_exit_ok s i v :
  nthN (validators s) i = Some v -> v_exit_epoch v = FAR_FUTURE_EPOCH -> slot_small s -> queue_head s < 2 ^ 63 ->
  initiate_validator_exit E i s = (Ok tt, set_validators (updN (validators s) i (exited (next_exit s) v)) s).
Proof.
  intros Hv Hf Hs Hq. unfold initiate_validator_exit. unfold sbind at 1, rd at 1. apply idx_ok in Hv as Hi. rewrite Hi.
  destruct (N.eqb_spec (v_exit_epoch v) FAR_FUTURE_EPOCH); [|contradiction]. cbn [negb].
  unfold sbind at 1, rd at 1. rewrite exit_queue_epoch_ok by assumption.
  rewrite (sbind_ok _ _ _ _ _ (mod_validator_ok s i _ v Hv)). unfold sbind at 1, lift at 1.
  assert (next_exit s <= queue_head s + 1) by (unfold next_exit; destruct (_ <=? _); lia).
  rewrite cadd_ok by (ctxs Hctx; pows; lia). cbn [ok_or].
  assert (Hlt : i < lenN (validators s)) by (eapply nthN_some; eauto).
  rewrite (mod_validator_ok _ i _ (set_v_exit_epoch (next_exit s) v)) by (gs; apply nthN_updN_eq; exact Hlt).
  f_equal. gs. rewrite updN_updN. reflexivity.
Qed.

Lemma filter_upd_count {A} (p : A -> bool) l i x y : nthN l i = Some x ->
  lenN (filter p (updN l i y)) + (if p x then 1 else 0) = lenN (filter p l) + (if p y then 1 else 0).
Proof.
  revert i; induction l as [|z l IH]; intros i H; [discriminate|].
  rewrite nthN_cons in H. cbn [updN]. destruct (i =? 0).
  - injection H as ->. cbn [filter]. destruct (p x), (p y); rewrite ?lenN_cons; lia.
  - specialize (IH _ H). cbn [filter]. destruct (p z); rewrite ?lenN_cons; lia.
Qed.

Lemma exits_at_after s i v q e : nthN (validators s) i = Some v -> v_exit_epoch v = FAR_FUTURE_EPOCH -> q <> FAR_FUTURE_EPOCH -> e <> FAR_FUTURE_EPOCH ->
  exits_at (set_validators (updN (validators s) i (exited q v)) s) e = exits_at s e + (if q =? e then 1 else 0).
Proof.
  intros Hv Hf Hq He. unfold exits_at. gs.
  pose proof (filter_upd_count (fun v => v_exit_epoch v =? e) (validators s) i v (exited q v) Hv) as H.
  cbn beta in H. unfold exited in H at 2. gsh H. rewrite Hf in H.
  destruct (N.eqb_spec FAR_FUTURE_EPOCH e); [congruence|]. unfold exited in *. lia.
Qed.

Lemma exits_at_beyond s e : queue_head s < e -> e <> FAR_FUTURE_EPOCH -> exits_at s e = 0.
Proof.
  intros Hq He. unfold exits_at. apply lenN_0. 
  assert (H : forall l, (forall v, In v l -> v_exit_epoch v <> e) -> filter (fun v => v_exit_epoch v =? e) l = []).
  { induction l as [|v l IH]; intros Hl; [reflexivity|]. cbn [filter].
    destruct (N.eqb_spec (v_exit_epoch v) e); [exfalso; eapply Hl; [left; reflexivity|assumption]|].
    apply IH. intros; apply Hl; right; assumption. }
  apply H. intros v Hv Heq. assert (v_exit_epoch v <= queue_head s) by (apply queue_head_ge; [exact Hv|congruence]). lia.
Qed.

(** the churn limit does not change while exits are initiated *)
Lemma active_after_exit s i v q : nthN (validators s) i = Some v -> v_exit_epoch v = FAR_FUTURE_EPOCH ->
  slot_small s -> epoch_of E s < q ->
  churn_limit E (set_validators (updN (validators s) i (exited q v)) s) = churn_limit E s.
Proof.
  intros Hv Hf Hsm Hq. pose proof (epoch_small E Hctx s Hsm) as Hes. unfold epoch_of in Hes. unfold churn_limit. f_equal. f_equal. unfold active_set, epoch_of. gs.
  rewrite !indices_where_len.
  pose proof (filter_upd_count (active_at (slot s / SLOTS_PER_EPOCH E)) (validators s) i v (exited q v) Hv) as H.
  unfold epoch_of in Hq.
  assert (Ha : active_at (slot s / SLOTS_PER_EPOCH E) (exited q v) = active_at (slot s / SLOTS_PER_EPOCH E) v).
  { unfold active_at, exited. gs. rewrite Hf.
    destruct (N.ltb_spec (slot s / SLOTS_PER_EPOCH E) q); [|lia].
    destruct (N.ltb_spec (slot s / SLOTS_PER_EPOCH E) FAR_FUTURE_EPOCH) as [|Hx]; [reflexivity|].
    exfalso. unfold FAR_FUTURE_EPOCH in Hx. pows. lia. }
  rewrite Ha in H. destruct (active_at _ v); lia.
Qed.

Lemma next_exit_bounds s : queue_head s <= next_exit s <= queue_head s + 1.
Proof. unfold next_exit. destruct (_ <=? _); lia. Qed.

(** the exit of one validator keeps the per-epoch count within the limit *)
Lemma exits_at_next s i v e : nthN (validators s) i = Some v -> v_exit_epoch v = FAR_FUTURE_EPOCH ->
  queue_head s < 2 ^ 63 -> e <> FAR_FUTURE_EPOCH ->
  exits_at (set_validators (updN (validators s) i (exited (next_exit s) v)) s) e <= N.max (exits_at s e) (churn_limit E s).
Proof.
  intros Hv Hf Hq He. pose proof (next_exit_bounds s) as Hn.
  rewrite exits_at_after; [|exact Hv|exact Hf|unfold FAR_FUTURE_EPOCH; pows; lia|exact He].
  destruct (N.eqb_spec (next_exit s) e) as [<-|]; [|lia].
  assert (Hc : 1 <= churn_limit E s) by (unfold churn_limit; ctxs Hctx; lia).
  unfold next_exit. destruct (N.leb_spec (churn_limit E s) (exits_at s (queue_head s))) as [Hge|Hlt]; [|lia].
  rewrite exits_at_beyond; [lia|lia|unfold FAR_FUTURE_EPOCH; pows; lia].
Qed.

Lemma earliest_same s vs : earliest_exit E (set_validators vs s) = earliest_exit E s.
Proof. reflexivity. Qed.
Lemma In_updN {A} (l : list A) i a x : In x (updN l i a) -> x = a \/ In x l.
Proof.
  intros H. apply In_nthN in H as [j Hj]. rewrite nthN_updN in Hj.
  destruct ((j =? i) && (i <? lenN l)); [left; congruence|right; eapply nthN_In; eauto].
Qed.
Lemma exits_below_after s i v q B : exits_below s B -> q < B + 1 ->
  exits_below (set_validators (updN (validators s) i (exited q v)) s) (B + 1).
Proof.
  intros Hb Hq w Hw Hne. gsh Hw. apply In_updN in Hw as [->|Hw].
  - unfold exited. gs. lia.
  - specialize (Hb w Hw Hne). lia.
Qed.

Lemma exit_sequence l : forall s B,
  slot_small s -> (forall i, In i l -> i < lenN (validators s)) ->
  exits_below s B -> earliest_exit E s < B -> B + lenN l <= 2 ^ 63 ->
  exists vs, sfor l (initiate_validator_exit E) s = (Ok tt, set_validators vs s)
    /\ lenN vs = lenN (validators s)
    /\ churn_limit E (set_validators vs s) = churn_limit E s
    /\ (forall e, e <> FAR_FUTURE_EPOCH -> exits_at (set_validators vs s) e <= N.max (exits_at s e) (churn_limit E s))
    /\ (forall i v, In i l -> nthN vs i = Some v -> v_exit_epoch v <> FAR_FUTURE_EPOCH)
    /\ (forall i v, nthN (validators s) i = Some v ->
          ~ In i l \/ v_exit_epoch v <> FAR_FUTURE_EPOCH -> nthN vs i = Some v).
Proof.
  induction l as [|i l IH]; intros s B Hs Hin Hb He HB; cbn [sfor].
  - exists (validators s). rewrite set_validators_id. repeat split; auto; intros; lia.
  - rewrite lenN_cons in HB.
    destruct (nthN_lt (validators s) i (Hin i (or_introl eq_refl))) as [v Hv].
    destruct (N.eq_dec (v_exit_epoch v) FAR_FUTURE_EPOCH) as [Hf|Hf].
    + assert (Hq : queue_head s < B) by (apply queue_head_lt; assumption).
      pose proof (next_exit_bounds s) as Hn. pose proof (queue_head_earliest s) as Hqe.
      assert (Hqne : next_exit s <> FAR_FUTURE_EPOCH) by (unfold FAR_FUTURE_EPOCH; pows; lia).
      assert (Hce : churn_limit E (set_validators (updN (validators s) i (exited (next_exit s) v)) s) = churn_limit E s).
      { apply active_after_exit; [exact Hv|exact Hf|exact Hs|unfold earliest_exit in *; lia]. }
      rewrite (sbind_ok _ _ _ _ _ (initiate_exit_ok s i v Hv Hf Hs ltac:(lia))).
      destruct (IH (set_validators (updN (validators s) i (exited (next_exit s) v)) s) (B + 1)) as (vs & H1 & H2 & H3 & H4 & H5 & H6).
      * unfold slot_small in *. gs. exact Hs.
      * intros j Hj. gs. rewrite lenN_updN. apply Hin. right; exact Hj.
      * apply exits_below_after; [exact Hb|lia].
      * rewrite earliest_same. lia.
      * lia.
      * assert (Hfold : forall x, set_validators vs (set_validators x s) = set_validators vs s) by reflexivity.
        rewrite Hfold in *. gsh H2. rewrite lenN_updN in H2.
        exists vs. split; [exact H1|]. split; [exact H2|]. split; [congruence|]. split; [|split].
        -- intros e Hne. etransitivity; [apply H4; exact Hne|]. rewrite Hce.
           pose proof (exits_at_next s i v e Hv Hf ltac:(lia) Hne). lia.
        -- intros j w [<-|Hj] Hw; [|eapply H5; eauto].
           assert (Hi : nthN (updN (validators s) i (exited (next_exit s) v)) i = Some (exited (next_exit s) v)).
           { apply nthN_updN_eq. eapply nthN_some; eauto. }
           assert (Hw' : nthN vs i = Some (exited (next_exit s) v)).
           { apply H6; [gs; exact Hi|right; unfold exited; gs; exact Hqne]. }
           assert (w = exited (next_exit s) v) as -> by congruence. unfold exited. gs. exact Hqne.
        -- intros j w Hw Hor. apply H6.
           ++ gs. rewrite nthN_updN_ne; [exact Hw|]. intros <-. assert (w = v) by congruence. subst w.
              destruct Hor as [Hn'|Hn']; [apply Hn'; left; reflexivity|congruence].
           ++ destruct Hor as [Hn'|Hn']; [left; intros Hj; apply Hn'; right; exact Hj|right; exact Hn'].
    + rewrite (sbind_ok _ _ _ _ _ (initiate_exit_noop s i v Hv Hf)).
      destruct (IH s B) as (vs & H1 & H2 & H3 & H4 & H5 & H6); auto; [intros; apply Hin; right; assumption|lia|].
      exists vs. repeat (split; [assumption|]). split.
      * intros j w [<-|Hj] Hw; [|eapply H5; eauto].
        assert (nthN vs i = Some v) by (apply H6; auto). congruence.
      * intros j w Hw Hor. apply H6; [exact Hw|]. destruct Hor as [Hn'|Hn']; [left; intros Hj; apply Hn'; right; exact Hj|right; exact Hn'].
Qed.
End P.
