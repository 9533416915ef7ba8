(** * Whoever has left never has a duty again *)
From Verif Require Import Base BaseLemmas Types Ctx Env Helpers HelpersAltair HelpersElectra Block Epoch Transition Upgrade Genesis StLemmas
  SpecCommon SpecHelpers SpecEpoch SpecRegistry SpecHistory Frame HelperProofs HelperProofs2 HistoryProofs IssuanceProofs Toy Toy2 Toy3 PropsEpoch PropsInvariants.

(** Take any validator whose exit is scheduled, and any calls on the state, in any order and with any outcome. In the state they leave behind, nobody with the key
    of that validator is active in the epoch of its exit or a later one: neither under its old index nor by registering again. *)
Theorem C129_no_return (E : Env) p q i v : history E p q -> unique_keys (snd p) -> nthN (validators (snd p)) i = Some v -> v_exit_epoch v <> FAR_FUTURE_EPOCH ->
  forall e j v', v_exit_epoch v <= e -> In j (active_set (snd q) e) -> nthN (validators (snd q)) j = Some v' -> v_public_key v' <> v_public_key v.
Proof.
  intros H Hk Hv Hx e j v' He Hj Hv' Heq. pose proof (history_keys E p q H Hk) as Hu.
  destruct (proj1 (history_across E p q H) i v Hv) as (w & Hw & (K1 & _ & _ & K4) & _). destruct (K4 Hx) as [K5 _].
  apply In_active_set in Hj as (u & Hu' & Ha). assert (u = v') as -> by congruence.
  assert (i = j) as <-.
  { unfold unique_keys in Hu. pose proof (nthN_map v_public_key (validators (snd q)) i) as A. pose proof (nthN_map v_public_key (validators (snd q)) j) as B.
    rewrite Hw in A. rewrite Hv' in B. cbn [option_map] in A, B. rewrite nthN_nth_error in A, B. apply N2Nat.inj.
    apply (proj1 (NoDup_nth_error (map v_public_key (validators (snd q))))); [exact Hu| |rewrite A, B; congruence].
    apply nth_error_Some. rewrite A. discriminate. }
  assert (w = v') as -> by congruence. unfold active_at in Ha. rewrite K5 in Ha. apply andb_true_iff in Ha as [_ Ha]. apply N.ltb_lt in Ha. lia.
Qed.
(** Hence it is never again in a committee of those epochs, nor the proposer. *)
Lemma loop_candidate (E : Env) s seed cand : forall n r i, proposer_loop E n s seed cand r = Ok i -> exists k, cand k = Ok i.
Proof.
  induction n as [|n IH]; intros r i H; cbn [proposer_loop] in H; [discriminate|]. apply rbind_ok_inv in H as (c & Hc & H). apply rbind_ok_inv in H as (b & _ & H).
  destruct b; [injection H as <-; eauto|eauto].
Qed.
Lemma proposer_active (E : Env) s j : get_beacon_proposer_index E s = Ok j -> In j (active_set s (epoch_of E s)).
Proof.
  intros H. unfold get_beacon_proposer_index in H. apply rbind_ok_inv in H as (e & He & H). apply rbind_ok_inv in H as (sd & _ & H). cbv zeta in H.
  assert (e = epoch_of E s) as -> by (unfold get_current_epoch, compute_epoch_at_slot, udiv in He; destruct (SLOTS_PER_EPOCH E =? 0); [discriminate|]; injection He as <-; reflexivity).
  rewrite get_active_ok in H. unfold compute_proposer_index in H. destruct (active_set s (epoch_of E s)) as [|a A] eqn:HA; [discriminate|]. rewrite <- HA in *. cbv zeta in H.
  destruct (feat_shuffling E).
  - apply rbind_ok_inv in H as (sh & Hsh & H). apply loop_candidate in H as (k & Hi). apply idx_ok in Hi. apply nthN_In in Hi.
    unfold compute_shuffled_indices in Hsh. rewrite HA in Hsh. rewrite HA. apply rbind_ok_inv in Hsh as (z & _ & Hsh). destruct (_ =? 0); [discriminate|].
    apply (rfold_in _ (fun l => l) _ j) in Hsh; [exact Hsh| |exact Hi]. intros l r l'. apply pass_in.
  - apply loop_candidate in H as (k & Hi). apply rbind_ok_inv in Hi as (si & _ & Hi). apply idx_ok in Hi. eapply nthN_In. exact Hi.
Qed.
Theorem C129_no_duties (E : Env) p q i v : history E p q -> unique_keys (snd p) -> nthN (validators (snd p)) i = Some v -> v_exit_epoch v <> FAR_FUTURE_EPOCH ->
  (forall sl c com j v', v_exit_epoch v <= sl / SLOTS_PER_EPOCH E -> get_beacon_committee E (snd q) sl c = Ok com -> In j com -> nthN (validators (snd q)) j = Some v' ->
     v_public_key v' <> v_public_key v)
  /\ (forall j v', v_exit_epoch v <= epoch_of E (snd q) -> get_beacon_proposer_index E (snd q) = Ok j -> nthN (validators (snd q)) j = Some v' -> v_public_key v' <> v_public_key v).
Proof.
  intros H Hk Hv Hx. split.
  - intros sl c com j v' He Hcom Hj. eapply (C129_no_return E p q i v H Hk Hv Hx _ j v' He). eapply beacon_committee_in; eauto.
  - intros j v' He Hp. eapply (C129_no_return E p q i v H Hk Hv Hx _ j v' He). apply proposer_active. exact Hp.
Qed.
(** validator 0 is to leave in epoch 5: it is active before the end of epoch 4, and in epoch 5 the others share the duties *)
Definition leave_toy : BeaconState := set_slot 19 epoch_toy.
Definition left_after : BeaconState := snd (process_slots tiny Altair 20 leave_toy).
Example C129_example : history tiny (Altair, leave_toy) (Altair, left_after) /\ unique_keys leave_toy
  /\ option_map v_exit_epoch (nthN (validators leave_toy) 0) = Some 5 /\ epoch_of tiny leave_toy = 4 /\ epoch_of tiny left_after = 5
  /\ active_set leave_toy 4 = [0; 1; 4] /\ active_set left_after 5 = [1; 4].
Proof.
  split; [apply Relation_Operators.rt_step; eapply call_slots; apply surjective_pairing|]. split.
  - unfold unique_keys. assert (K : map (fun v => hd 0 (v_public_key v)) (validators leave_toy) = [1; 2; 3; 4; 5; 6]) by (vm_compute; reflexivity).
    apply (NoDup_map_inv (hd 0)). rewrite map_map, K. repeat constructor; cbn [In]; intros X; repeat destruct X as [X|X]; try discriminate X; exact X.
  - repeat split; vm_compute; reflexivity.
Qed.

Print Assumptions C129_no_return.
Print Assumptions C129_no_duties.
