(** * Property theorems: attestations (C25, C33, C45) *)
From Verif Require Import Base BaseLemmas Types Ctx Env Helpers HelpersAltair HelpersElectra Block StLemmas
  SpecCommon SpecShuffle SpecHelpers SpecElectra SpecOps SpecBlock SpecAtt HelperProofs HelperProofs2 OpsProofs SlashProofs BlockProofs AttProofs
  Toy ToyCtx Toy2 Toy3.
From Coq Require Import Sorted.

(** ** C25: attestations in phase0 *)
Theorem C25_attestation_phase0 : forall (E : Env) (a : Attestation) (s : BeaconState) (p : N),
  ctx_sane E -> ctx_sane_att E -> hash_wf (hash E) -> state_shape E s -> slot_small s -> get_beacon_proposer_index E s = Ok p ->
  let entry := mkPending (at_aggregation_bits a) (at_data a) (slot s - ad_slot (at_data a)) p in
  ((exists l, attestation_valid E Phase0 s a l) ->
     process_attestation E Phase0 a s =
       (Ok tt, if cp_epoch (ad_target (at_data a)) =? epoch_of E s
               then set_current_epoch_attestations (current_epoch_attestations s ++ [entry]) s
               else set_previous_epoch_attestations (previous_epoch_attestations s ++ [entry]) s))
  /\ (~ (exists l, attestation_valid E Phase0 s a l) -> rejected (process_attestation E Phase0 a) s).
Proof.
  intros E a s p Hc Ha Hw Hsh Hs Hp entry. cbn [process_attestation]. unfold process_attestation_phase0.
  pose proof (fun r => att_phase0_iff E Hc Hw Ha a s p r Hsh Hs Hp) as Hiff. split.
  - intros Hv. rewrite (run_rd _ _ _ (cp_epoch (ad_target (at_data a)) =? epoch_of E s, entry)) by (apply Hiff; split; [exact Hv|reflexivity]).
    cbn [fst snd]. destruct (cp_epoch (ad_target (at_data a)) =? epoch_of E s); reflexivity.
  - intros Hv. apply guard_rejects. apply not_ok. intros r Hr. apply Hiff in Hr. apply Hv, Hr.
Qed.

(** ** C33: attestations from altair to deneb *)
Theorem C33_attestation_flags : forall (E : Env) (f : Fork) (a : Attestation) (s : BeaconState) (p : N),
  ctx_sane E -> ctx_sane_att E -> hash_wf (hash E) -> state_shape E s -> slot_small s -> active_balance_fits E s ->
  lenN (current_epoch_participation s) = lenN (validators s) -> lenN (previous_epoch_participation s) = lenN (validators s) ->
  get_beacon_proposer_index E s = Ok p -> p < lenN (balances s) -> f = Altair \/ f = Bellatrix \/ f = Capella \/ f = Deneb ->
  (~ (exists l, attestation_valid E f s a l) -> rejected (process_attestation E f a) s)
  /\ forall l, attestation_valid E f s a l ->
     exists flags, NoDup flags /\ (forall k, In k flags <-> earns E f s (at_data a) k) /\
     let part := participation_for E s (at_data a) in
     let gain := newly_earned E s part flags l in
     (gain < 2 ^ 64 -> (forall b, nthN (balances s) p = Some b -> b + gain / 448 < 2 ^ 64) ->
      exists part', process_attestation E f a s =
          (Ok tt, set_balances (credit p (gain / 448) (balances s)) (with_participation E (at_data a) part' s))
        /\ lenN part' = lenN part
        /\ (forall i q, In i l -> nthN part i = Some q -> nthN part' i = Some (with_flags flags q))
        /\ (forall i, ~ In i l -> nthN part' i = nthN part i)).
Proof.
  intros E f a s p Hc Ha Hw Hsh Hs Hfit Hl1 Hl2 Hp Hpb Hf.
  assert (Hpr : process_attestation E f a = process_attestation_altair E f a) by (destruct Hf as [->|[->|[->| ->]]]; reflexivity).
  rewrite Hpr. split.
  - intros Hv. unfold process_attestation_altair. apply guard_rejects. apply not_ok. intros r Hr. apply Hv.
    exact (att_altair_checks_inv E Hc Hw Ha f a s r Hf Hsh Hs Hr).
  - intros l Hv. exact (att_altair_run E Hc Hw Ha f a s l p Hf Hsh Hs Hfit Hl1 Hl2 Hv Hp Hpb).
Qed.
(** a flag that is set is never cleared, and exactly the earned ones are added *)
Theorem C33_flags_only_grow : forall (flags : list N) (old k : N),
  N.testbit (with_flags flags old) k = true <-> N.testbit old k = true \/ In k flags.
Proof. intros flags old k. rewrite with_flags_bit, orb_true_iff, memN_true. reflexivity. Qed.

(** including the same attestation again changes nothing, and pays nothing *)
Theorem C33_repetition_pays_nothing : forall (E : Env) (f : Fork) (a : Attestation) (s s1 : BeaconState) (p : N) (l : list N),
  ctx_sane E -> ctx_sane_att E -> hash_wf (hash E) -> state_shape E s -> slot_small s -> active_balance_fits E s ->
  lenN (current_epoch_participation s) = lenN (validators s) -> lenN (previous_epoch_participation s) = lenN (validators s) ->
  get_beacon_proposer_index E s = Ok p -> p < lenN (balances s) -> f = Altair \/ f = Bellatrix \/ f = Capella \/ f = Deneb ->
  attestation_valid E f s a l ->
  (forall flags, (forall k, In k flags -> earns E f s (at_data a) k) -> NoDup flags ->
     newly_earned E s (participation_for E s (at_data a)) flags l < 2 ^ 62) -> (forall b, In b (balances s) -> b < 2 ^ 62) ->
  process_attestation E f a s = (Ok tt, s1) ->
  process_attestation E f a s1 = (Ok tt, s1).
Proof.
  intros E f a s s1 p l Hc Ha Hw Hsh Hs Hfit Hl1 Hl2 Hp Hpb Hf Hv Hgain Hbal H1.
  destruct (C33_attestation_flags E f a s p Hc Ha Hw Hsh Hs Hfit Hl1 Hl2 Hp Hpb Hf) as [_ HC].
  destruct (HC l Hv) as (flags & Hnd & Hfl & Heff). cbv zeta in Heff.
  set (part := participation_for E s (at_data a)) in *. set (gain := newly_earned E s part flags l) in *.
  assert (Hg : gain < 2 ^ 62) by (apply Hgain; [intros k; apply Hfl|exact Hnd]).
  destruct Heff as (part' & He & Hlen & Hin & Hout).
  { pows; lia. }
  { intros b Hb. apply nthN_In, Hbal in Hb. assert (gain / 448 <= gain) by (apply N.div_le_upper_bound; lia). pows; lia. }
  rewrite H1 in He. apply (f_equal snd) in He. cbn [snd] in He.
  assert (Hpl : lenN part = lenN (validators s)) by (unfold part, participation_for; destruct (cp_epoch (ad_target (at_data a)) =? epoch_of E s); assumption).
  assert (Hf1 : slot s1 = slot s /\ validators s1 = validators s /\ randao_mixes s1 = randao_mixes s /\ block_roots s1 = block_roots s
     /\ state_roots s1 = state_roots s /\ slashings s1 = slashings s /\ justification_bits s1 = justification_bits s
     /\ current_justified_checkpoint s1 = current_justified_checkpoint s /\ previous_justified_checkpoint s1 = previous_justified_checkpoint s
     /\ SpecHelpers.version_at s1 = SpecHelpers.version_at s /\ genesis_validators_root s1 = genesis_validators_root s
     /\ balances s1 = credit p (gain / 448) (balances s) /\ participation_for E s1 (at_data a) = part'
     /\ lenN (current_epoch_participation s1) = lenN (validators s) /\ lenN (previous_epoch_participation s1) = lenN (validators s)).
  { rewrite He. rewrite Hpl in Hlen. clear - Hlen Hl1 Hl2. clearbody gain. unfold with_participation, participation_for.
    replace (epoch_of E (set_balances (credit p (gain / 448) (balances s))
        (if cp_epoch (ad_target (at_data a)) =? epoch_of E s then set_current_epoch_participation part' s else set_previous_epoch_participation part' s)))
      with (epoch_of E s) by (destruct (cp_epoch (ad_target (at_data a)) =? epoch_of E s); reflexivity).
    destruct (cp_epoch (ad_target (at_data a)) =? epoch_of E s); repeat (split; [reflexivity|]); gs; auto. }
  destruct Hf1 as (F1 & F2 & F3 & F4 & F5 & F6 & F7 & F8 & F9 & F10 & F11 & F12 & F13 & F14 & F15).
  assert (Hep : epoch_of E s1 = epoch_of E s) by (unfold epoch_of; rewrite F1; reflexivity).
  assert (Hact : forall e, active_set s1 e = active_set s e) by (intros e; unfold active_set; rewrite F2; reflexivity).
  assert (Hcis : forall e, committees_in_slot E s1 e = committees_in_slot E s e) by (intros e; unfold committees_in_slot; rewrite Hact; reflexivity).
  assert (Hv1 : attestation_valid E f s1 a l).
  { destruct Hv as (V1 & V2 & V3 & (com & V4 & V5) & V6 & V7). split; [|split; [|split; [|split; [|split]]]].
    - unfold attestation_timely, prev_epoch_of in *. rewrite Hep, F1. exact V1.
    - rewrite Hcis. exact V2.
    - unfold justified_for in *. rewrite Hep, F8, F9. exact V3.
    - exists com. split; [|exact V5]. unfold is_committee, is_attester_seed in *. rewrite Hact, Hcis, F3. exact V4.
    - exact V6.
    - unfold indexed_valid in *. rewrite F2, F10, F11. exact V7. }
  assert (Hsh1 : state_shape E s1).
  { unfold state_shape in *. rewrite F2, F3, F4, F5, F6, F7. exact Hsh. }
  assert (Hs1 : slot_small s1) by (unfold slot_small in *; rewrite F1; exact Hs).
  assert (Hsum : forall i, effective_balance_of s1 i = effective_balance_of s i) by (intros i; unfold effective_balance_of; rewrite F2; reflexivity).
  assert (Hab : effective_sum s1 (active_set s1 (epoch_of E s1)) = effective_sum s (active_set s (epoch_of E s))).
  { rewrite Hact, Hep. unfold effective_sum. f_equal. apply map_ext. exact Hsum. }
  assert (Hfit1 : active_balance_fits E s1) by (unfold active_balance_fits in *; rewrite Hab; exact Hfit).
  assert (Hp1 : get_beacon_proposer_index E s1 = Ok p).
  { rewrite <- Hp. apply proposer_ext; [exact Hc|]. apply same_duties_fields; assumption. }
  assert (Hpb1 : p < lenN (balances s1)) by (rewrite F12, lenN_credit; exact Hpb).
  rewrite <- F2 in F14, F15.
  destruct (C33_attestation_flags E f a s1 p Hc Ha Hw Hsh1 Hs1 Hfit1 F14 F15 Hp1 Hpb1 Hf) as [_ HC1].
  destruct (HC1 l Hv1) as (flags1 & Hnd1 & Hfl1 & Heff1). cbv zeta in Heff1.
  assert (Hff : forall k, In k flags1 <-> In k flags).
  { intros k. rewrite Hfl, Hfl1. unfold earns, earns_after, head_matches, target_matches, recorded_root. rewrite F1, F4. reflexivity. }
  rewrite F13 in Heff1.
  assert (Hidx : forall i, In i l -> i < lenN (validators s)).
  { destruct Hv as (_ & _ & _ & _ & _ & (_ & _ & pks & _ & _ & Hpk & _)). cbn [ia_attesting_indices] in Hpk.
    clear - Hpk. induction Hpk as [|x y l k (v & Hv & _) Hpk IH]; intros i Hi; [destruct Hi|]. destruct Hi as [<-|Hi]; [eapply nthN_some; eauto|auto]. }
  assert (Hbit : forall i q, In i l -> nthN part' i = Some q -> forall k, In k flags1 -> N.testbit q k = true).
  { intros i q Hi Hq k Hk. destruct (nthN_lt part i) as [q0 Hq0]; [rewrite Hpl; apply Hidx; exact Hi|].
    rewrite (Hin i q0 Hi Hq0) in Hq. injection Hq as <-. apply C33_flags_only_grow. right. apply Hff. exact Hk. }
  assert (Hg1 : newly_earned E s1 part' flags1 l = 0).
  { unfold newly_earned. assert (Hz : forall k, (forall x, In x k -> In x l) ->
      sumN (map (fun i => base_reward E s1 i * new_weight flags1 match nthN part' i with Some p0 => p0 | None => 0 end) k) = 0).
    { induction k as [|i k IH]; intros Hk; [reflexivity|]. cbn [map]. rewrite sumN_cons, IH by (intros x Hx; apply Hk; right; exact Hx).
      destruct (nthN_lt part' i) as [q Hq]; [rewrite Hlen, Hpl; apply Hidx, Hk; left; reflexivity|]. rewrite Hq.
      unfold new_weight, new_flags.
      assert (Hn : filter (fun k0 => negb (N.testbit q k0)) flags1 = []).
      { pose proof (Hbit i q (Hk i (or_introl eq_refl)) Hq) as Hb. clear - Hb. induction flags1 as [|x fl IHf]; [reflexivity|]. cbn [filter].
        rewrite Hb by (left; reflexivity). cbn [negb]. apply IHf. intros k Hk. apply Hb. right; exact Hk. }
      rewrite Hn. cbn [map sumN]. change (sumN []) with 0. lia. }
    apply Hz. auto. }
  rewrite Hg1 in Heff1. destruct Heff1 as (part2 & He2 & Hlen2 & Hin2 & Hout2); [reflexivity| |].
  { intros b Hb. change (0 / 448) with 0. rewrite F12 in Hb. apply nthN_In, In_credit in Hb as [Hb|(b0 & Hb & ->)]; apply Hbal in Hb.
    - pows; lia.
    - assert (gain / 448 <= gain) by (apply N.div_le_upper_bound; lia). pows; lia. }
  rewrite He2. f_equal. change (0 / 448) with 0. rewrite credit_0.
  assert (Hpp : part2 = part').
  { apply nthN_ext. intros i. destruct (in_dec N.eq_dec i l) as [Hi|Hi]; [|apply Hout2; exact Hi].
    destruct (nthN_lt part' i) as [q Hq]; [rewrite Hlen, Hpl; apply Hidx; exact Hi|]. rewrite (Hin2 i q Hi Hq), Hq. f_equal.
    apply N.bits_inj. intros k. rewrite with_flags_bit. destruct (memN k flags1) eqn:Hk; [|apply orb_false_r].
    apply memN_true in Hk. rewrite (Hbit i q Hi Hq k Hk). reflexivity. }
  rewrite Hpp. rewrite <- F13 at 1. unfold with_participation, participation_for.
  destruct (cp_epoch (ad_target (at_data a)) =? epoch_of E s1); rewrite ?set_current_epoch_participation_id, ?set_previous_epoch_participation_id; apply set_balances_id.
Qed.

(** ** C45: from deneb on there is no upper bound on the inclusion delay *)
Theorem C45_deneb_window : forall (E : Env) (s : BeaconState) (d : AttestationData) (f : Fork),
  ctx_sane E -> ctx_sane_att E -> slot_small s ->
  (is_ok (attestation_window E f d s) = true <-> attestation_timely E f s d)
  /\ (f = Deneb \/ f = Electra ->
       (attestation_timely E f s d <->
         (cp_epoch (ad_target d) = epoch_of E s \/ cp_epoch (ad_target d) = prev_epoch_of E s)
         /\ cp_epoch (ad_target d) = ad_slot d / SLOTS_PER_EPOCH E /\ ad_slot d + MIN_ATTESTATION_INCLUSION_DELAY E <= slot s)).
Proof.
  intros E s d f Hc Ha Hs. pose proof (fun b => window_iff E Hc Ha f d s b Hs) as Hiff. split.
  - split.
    + destruct (attestation_window E f d s) as [b| | |] eqn:H; try discriminate. intros _. apply (proj1 (Hiff b)). reflexivity.
    + intros Ht. rewrite (proj2 (Hiff _) (conj Ht eq_refl)). reflexivity.
  - intros Hf. unfold attestation_timely, from_deneb. tauto.
Qed.

(** a valid attestation in a concrete state: committee [0; 1] of slot 12, included in slot 13, both members attest *)
Definition att_toy_state : BeaconState := tiny_state 8 13.
Definition att_toy_data : AttestationData := mkAttData 12 0 (to_le 32 13) zero_cp (mkCheckpoint 3 (to_le 32 13)).
Definition att_toy : Attestation :=
  mkAtt [true; true] att_toy_data []
    (match get_domain tiny att_toy_state DBeaconAttester (Some 3) with
     | Ok d => toy_sign (toy_pk 0 ++ toy_pk 1) (tiny_signing_root d (OAttestationData att_toy_data)) | _ => [] end).
Lemma tiny_sane_att : ctx_sane_att tiny. Proof. vm_compute. repeat split; congruence. Qed.
Lemma att_toy_small : slot_small att_toy_state. Proof. vm_compute. reflexivity. Qed.
Lemma att_toy_shape : state_shape tiny att_toy_state. Proof. apply tiny_shape. vm_compute. discriminate. Qed.
Lemma att_toy_valid : exists l, attestation_valid tiny Altair att_toy_state att_toy l.
Proof.
  destruct (attestation_checks tiny Altair att_toy att_toy_state) as [r| | |] eqn:H; [|vm_compute in H; discriminate..].
  apply (att_altair_checks_inv tiny tiny_sane toy_hash_wf tiny_sane_att Altair att_toy att_toy_state r); [left; reflexivity|exact att_toy_shape|exact att_toy_small|exact H].
Qed.
Example C25_example : (exists l, attestation_valid tiny Phase0 att_toy_state att_toy l)
  /\ fst (process_attestation tiny Phase0 att_toy att_toy_state) = Ok tt
  /\ lenN (current_epoch_attestations (snd (process_attestation tiny Phase0 att_toy att_toy_state))) = 1
  /\ fst (process_attestation tiny Phase0 att_toy (tiny_state 8 12)) = Err EAttNotTimely
  /\ fst (process_attestation tiny Phase0 (mkAtt [true] att_toy_data [] []) att_toy_state) = Err EAttBitfield.
Proof.
  split.
  - destruct (attestation_checks_phase0 tiny att_toy att_toy_state) as [r| | |] eqn:H; [|vm_compute in H; discriminate..].
    destruct (get_beacon_proposer_index tiny att_toy_state) as [p| | |] eqn:Hp; [|vm_compute in Hp; discriminate..].
    apply (att_phase0_iff tiny tiny_sane toy_hash_wf tiny_sane_att att_toy att_toy_state p r att_toy_shape att_toy_small Hp). exact H.
  - repeat split; vm_compute; reflexivity.
Qed.
Example C33_example : (exists l, attestation_valid tiny Altair att_toy_state att_toy l)
  /\ let s1 := snd (process_attestation tiny Altair att_toy att_toy_state) in
     current_epoch_participation s1 = [7; 7; 0; 0; 0; 0; 0; 0] /\ balances s1 <> balances att_toy_state.
Proof. split; [exact att_toy_valid|]. cbv zeta. split; vm_compute; [reflexivity|discriminate]. Qed.
(** an attestation of slot 8 included in slot 13 is too old for capella and fine for deneb *)
Example C45_example : let d := mkAttData 8 0 (to_le 32 13) zero_cp (mkCheckpoint 2 (to_le 32 13)) in
  attestation_window tiny Capella d att_toy_state = Err EAttNotTimely /\ attestation_window tiny Deneb d att_toy_state = Ok false.
Proof. split; vm_compute; reflexivity. Qed.

Print Assumptions C25_attestation_phase0.
Print Assumptions C33_attestation_flags.
Print Assumptions C33_flags_only_grow.
Print Assumptions C33_repetition_pays_nothing.
Print Assumptions C45_deneb_window.
