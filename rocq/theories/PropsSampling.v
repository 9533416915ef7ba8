(** * Property theorems C92: the odds of being chosen as proposer or sync-committee member follow the stake *)
From Verif Require Import Base BaseLemmas Types Ctx Presets Env Helpers HelpersAltair SpecCommon SpecShuffle SpecHelpers SpecEpoch SpecSampling
  ShuffleProofs HelperProofs HelperProofs2 OpsProofs PeriodicProofs PropsHelpers PropsEpoch Toy Toy2 Toy3.

Lemma byte_wins cap stake b : 0 < cap -> b < 256 -> (cap * b <= stake * 255 <-> b < tickets cap stake).
Proof.
  intros Hc Hb. unfold tickets. pose proof (N.div_mod' (stake * 255) cap) as Hd. pose proof (N.mod_lt (stake * 255) cap ltac:(lia)) as Hm.
  set (q := stake * 255 / cap) in *. set (m := (stake * 255) mod cap) in *. set (z := stake * 255) in *. clearbody q m z. split; intros H.
  - apply N.min_glb_lt; [exact Hb|]. nia.
  - assert (b < q + 1) by lia. nia.
Qed.
Lemma byte_small (E : Env) seed r : hash_wf (hash E) -> proposer_byte E seed r < 256.
Proof.
  intros Hwf. unfold proposer_byte. destruct (Hwf (seed ++ to_le 8 (r / 32))) as [Hl Hf]. rewrite Forall_forall in Hf. apply Hf. apply nth_In. pose proof (N.mod_lt r 32). lia.
Qed.
Lemma cap_pos (E : Env) : ctx_sane E -> 0 < MAX_EFFECTIVE_BALANCE E.
Proof. intros Hc. unfold ctx_sane in Hc. lia. Qed.

(** ** Before electra: the proposer *)
Theorem C92_proposer_partial : forall (E : Env) (f : Fork) (s : BeaconState), f <> Electra ->
  ctx_sane E -> hash_wf (hash E) -> state_shape E s -> slot_small s -> effective_bounded s -> N.of_nat (fuel E) < 2 ^ 60 ->
  let A := active_set s (epoch_of E s) in
  A <> [] ->
  exists seed,
    (exists i r, get_beacon_proposer_index E s = Ok i /\ first_winner E (stake_cap E f) s A seed r i)
    \/ (get_beacon_proposer_index E s = Diverge
        /\ forall r i, r < N.of_nat (fuel E) -> proposer_candidate E A seed r = Some i -> tickets (stake_cap E f) (effective_balance_of s i) <= proposer_byte E seed r).
Proof.
  intros E f s Hf Hc Hw Hsh Hs Hb Hfu A HA. destruct (C04_proposer_index E s Hc Hw Hsh Hs Hb Hfu HA) as (mix & seed & _ & _ & H). exists seed.
  assert (Hcap : stake_cap E f = MAX_EFFECTIVE_BALANCE E) by (destruct f; try reflexivity; contradiction). rewrite Hcap. pose proof (cap_pos E Hc) as Hp.
  assert (Hno : forall i r, ~ proposer_accepts E s seed i r -> tickets (MAX_EFFECTIVE_BALANCE E) (effective_balance_of s i) <= proposer_byte E seed r).
  { intros i r Hn. unfold proposer_accepts in Hn. rewrite (byte_wins _ _ _ Hp (byte_small E seed r Hw)) in Hn. lia. }
  destruct H as [(i & r & H1 & _ & _ & H2 & H3 & H4)|[H1 H2]]; [left|right].
  - exists i, r. split; [exact H1|]. split; [exact H2|]. split.
    + apply (byte_wins _ _ _ Hp (byte_small E seed r Hw)). exact H3.
    + intros r' i' Hr Hi. apply Hno. exact (H4 r' i' Hr Hi).
  - split; [exact H1|]. intros r i Hr Hi. apply Hno. exact (H2 r i Hr Hi).
Qed.
(** ** Before electra: the sync committee *)
Theorem C92_sync_committee_partial : forall (E : Env) (f : Fork) (s : BeaconState) (c : SyncCommittee), f <> Electra ->
  ctx_sane E -> hash_wf (hash E) -> state_shape E s -> slot_small s -> effective_bounded s -> N.of_nat (fuel E) < 2 ^ 60 -> 0 < SYNC_COMMITTEE_SIZE E ->
  get_next_sync_committee E s = Ok c ->
  exists seed rounds, let l := winners E (stake_cap E f) s (active_set s (epoch_of E s + 1)) seed rounds in
    lenN l = SYNC_COMMITTEE_SIZE E /\ map (key_of s) l = map Some (sc_public_keys c).
Proof.
  intros E f s c Hf Hc Hw Hsh Hs Hb Hfu Hsz H.
  assert (Hcap : stake_cap E f = MAX_EFFECTIVE_BALANCE E) by (destruct f; try reflexivity; contradiction). rewrite Hcap. pose proof (cap_pos E Hc) as Hp.
  destruct (C35_members E s c Hc Hw Hsh Hs Hb Hfu Hsz H) as (_ & l & (seed & rounds & _ & H2 & H3) & (H4 & _) & _). exists seed, rounds. cbv zeta.
  assert (Hl : winners E (MAX_EFFECTIVE_BALANCE E) s (active_set s (epoch_of E s + 1)) seed rounds = l).
  { rewrite H2. unfold winners. apply flat_map_ext. intros r. unfold accepted_in. destruct (proposer_candidate E _ seed r) as [i|]; [|reflexivity].
    pose proof (byte_wins (MAX_EFFECTIVE_BALANCE E) (effective_balance_of s i) _ Hp (byte_small E seed r Hw)) as Hi.
    destruct (N.leb_spec (MAX_EFFECTIVE_BALANCE E * proposer_byte E seed r) (effective_balance_of s i * 255)), (N.ltb_spec (proposer_byte E seed r) (tickets (MAX_EFFECTIVE_BALANCE E) (effective_balance_of s i))); try reflexivity; exfalso; [apply Hi in H0; lia|apply Hi in H1; lia]. }
  rewrite Hl. auto.
Qed.

(** ** Electra: above the old cap of 32 ETH the stake makes no difference at all *)
Lemma stakes_same_active s s' e : only_stakes_differ s s' -> get_active_validator_indices s' e = get_active_validator_indices s e.
Proof.
  intros (_ & _ & H). unfold get_active_validator_indices. symmetry. apply active_from_ext. eapply Forall2_impl; [|exact H]. cbv beta.
  intros a b (_ & Ha & He). unfold is_active_validator. rewrite Ha, He. reflexivity.
Qed.
Lemma stakes_nth s s' i : only_stakes_differ s s' ->
  match nthN (validators s) i, nthN (validators s') i with
  | Some v, Some w => v_public_key w = v_public_key v
  | None, None => True
  | _, _ => False
  end.
Proof.
  intros (_ & _ & H). apply Forall2_nth in H as [Hl Hn]. destruct (nthN (validators s) i) as [v|] eqn:Hv.
  - pose proof (nthN_some _ _ _ Hv) as Hlt. rewrite Hl in Hlt. destruct (nthN_lt _ _ Hlt) as [w Hw]. rewrite Hw. apply (Hn i v w Hv Hw).
  - apply nthN_none in Hv. rewrite Hl in Hv. apply nthN_none in Hv. rewrite Hv. exact I.
Qed.
Lemma stake_wins (E : Env) s i v b : ctx_sane E -> stakes_between (MAX_EFFECTIVE_BALANCE E) (2 ^ 44) s -> b < 256 -> nthN (validators s) i = Some v ->
  (let! a := mul E (v_effective_balance v) 255 in let! c := mul E (MAX_EFFECTIVE_BALANCE E) b in Ok (c <=? a)) = Ok true.
Proof.
  intros Hc Hb Hby Hv. unfold stakes_between in Hb. rewrite Forall_forall in Hb. specialize (Hb v (nthN_In _ _ _ Hv)).
  unfold mul. rewrite umul_ok by (pows; lia). cbn [rbind]. rewrite umul_ok by (unfold ctx_sane in Hc; pows; nia). cbn [rbind]. f_equal. apply N.leb_le. nia.
Qed.
Theorem C92_electra_proposer_refuted : forall (E : Env) (s s' : BeaconState),
  ctx_sane E -> hash_wf (hash E) -> only_stakes_differ s s' ->
  stakes_between (MAX_EFFECTIVE_BALANCE E) (2 ^ 44) s -> stakes_between (MAX_EFFECTIVE_BALANCE E) (2 ^ 44) s' ->
  get_beacon_proposer_index E s' = get_beacon_proposer_index E s.
Proof.
  intros E s s' Hc Hw Hd Hb Hb'. pose proof Hd as (H1 & H2 & _). unfold get_beacon_proposer_index, get_current_epoch. rewrite H1.
  destruct (compute_epoch_at_slot E (slot s)) as [e| | |]; cbn [rbind]; try reflexivity.
  assert (Hseed : get_seed E s' e DBeaconProposer = get_seed E s e DBeaconProposer) by (unfold get_seed, get_randao_mix; rewrite H2; reflexivity).
  rewrite Hseed. destruct (get_seed E s e DBeaconProposer); cbn [rbind]; try reflexivity. rewrite (stakes_same_active s s' e Hd).
  assert (Hl : forall seed cand n r, proposer_loop E n s' seed cand r = proposer_loop E n s seed cand r).
  { intros seed cand n. induction n as [|n IH]; intros r; cbn [proposer_loop]; [reflexivity|]. destruct (cand r) as [c| | |]; cbn [rbind]; try reflexivity.
    assert (Hs : sample_proposer_index E s' c r seed = sample_proposer_index E s c r seed).
    { unfold sample_proposer_index. rewrite idx_hash by (assumption || (apply N.mod_lt; lia)). cbn [rbind]. pose proof (stakes_nth s s' c Hd) as Hn.
      pose proof (byte_small E seed r Hw) as Hby. unfold proposer_byte in Hby. unfold idx.
      destruct (nthN (validators s) c) as [v|] eqn:Hv, (nthN (validators s') c) as [w|] eqn:Hv'; try contradiction; [|reflexivity].
      cbn [expect rbind]. rewrite (stake_wins E s c v _ Hc Hb Hby Hv). apply (stake_wins E s' c w _ Hc Hb' Hby Hv'). }
    rewrite Hs. destruct (sample_proposer_index E s c r seed) as [[]| | |]; cbn [rbind]; try reflexivity. apply IH. }
  unfold compute_proposer_index. destruct (get_active_validator_indices s e); [reflexivity|]. destruct (feat_shuffling E).
  - destruct (compute_shuffled_indices E _ _); cbn [rbind]; try reflexivity. apply Hl.
  - apply Hl.
Qed.
Theorem C92_electra_sync_committee_refuted : forall (E : Env) (s s' : BeaconState),
  ctx_sane E -> hash_wf (hash E) -> only_stakes_differ s s' ->
  stakes_between (MAX_EFFECTIVE_BALANCE E) (2 ^ 44) s -> stakes_between (MAX_EFFECTIVE_BALANCE E) (2 ^ 44) s' ->
  get_next_sync_committee E s' = get_next_sync_committee E s.
Proof.
  intros E s s' Hc Hw Hd Hb Hb'. pose proof Hd as (H1 & H2 & _).
  assert (Hl : forall n seed act i acc, sync_loop E n s' seed act i acc = sync_loop E n s seed act i acc).
  { induction n as [|n IH]; intros; cbn [sync_loop]; [reflexivity|]. destruct (_ <=? _); [reflexivity|].
    assert (Hs : sync_candidate E s' seed act i = sync_candidate E s seed act i).
    { unfold sync_candidate. destruct (umod i (lenN act)) as [im| | |]; cbn [rbind]; try reflexivity.
      destruct (compute_shuffled_index E im (lenN act) seed) as [si| | |]; cbn [rbind]; try reflexivity.
      destruct (idx act si) as [c| | |]; cbn [rbind]; try reflexivity. rewrite idx_hash by (assumption || (apply N.mod_lt; lia)). cbn [rbind].
      pose proof (stakes_nth s s' c Hd) as Hn. pose proof (byte_small E seed i Hw) as Hby. unfold proposer_byte in Hby. unfold idx.
      set (b := nth _ _ 0) in *. clearbody b.
      destruct (nthN (validators s) c) as [v|] eqn:Hv, (nthN (validators s') c) as [w|] eqn:Hv'; try contradiction; [|reflexivity].
      cbn [expect rbind]. pose proof (stake_wins E s c v b Hc Hb Hby Hv) as W1. pose proof (stake_wins E s' c w b Hc Hb' Hby Hv') as W2.
      destruct (mul E (v_effective_balance v) 255) as [a| | |], (mul E (v_effective_balance w) 255) as [a'| | |]; cbn [rbind] in *; try discriminate.
      destruct (mul E (MAX_EFFECTIVE_BALANCE E) b) as [m| | |]; cbn [rbind] in *; try discriminate. injection W1 as W1. injection W2 as W2. rewrite W1, W2. reflexivity. }
    rewrite Hs. destruct (sync_candidate E s seed act i); cbn [rbind]; try reflexivity. apply IH. }
  assert (Hi : get_next_sync_committee_indices E s' = get_next_sync_committee_indices E s).
  { unfold get_next_sync_committee_indices, get_current_epoch. rewrite H1. destruct (compute_epoch_at_slot E (slot s)) as [e| | |]; cbn [rbind]; try reflexivity.
    destruct (add E e 1) as [e1| | |]; cbn [rbind]; try reflexivity. rewrite (stakes_same_active s s' e1 Hd).
    assert (Hseed : get_seed E s' e1 DSyncCommittee = get_seed E s e1 DSyncCommittee) by (unfold get_seed, get_randao_mix; rewrite H2; reflexivity).
    rewrite Hseed. destruct (get_seed E s e1 DSyncCommittee); cbn [rbind]; try reflexivity. apply Hl. }
  unfold get_next_sync_committee. rewrite Hi. destruct (get_next_sync_committee_indices E s) as [l| | |]; cbn [rbind]; try reflexivity.
  assert (Hm : rmap (fun i => let! v := idx (validators s') i in Ok (v_public_key v)) l = rmap (fun i => let! v := idx (validators s) i in Ok (v_public_key v)) l).
  { clear - Hd. induction l as [|i l IH]; cbn [rmap]; [reflexivity|]. rewrite IH. pose proof (stakes_nth s s' i Hd) as Hn. unfold idx.
    destruct (nthN (validators s) i), (nthN (validators s') i); try contradiction; cbn [expect rbind]; [rewrite Hn; reflexivity|reflexivity]. }
  rewrite Hm. reflexivity.
Qed.

(** * Examples

    Six validators at the cap of 32 ETH before electra; then the same registry with validator 0 at 2048 ETH and nobody else changed. *)
Definition whale (s : BeaconState) : BeaconState :=
  set_validators (match validators s with
                  | v :: l => set_v_effective_balance 2048000000000 v :: l
                  | [] => []
                  end) s.
Lemma stakes_check lo hi s : forallb (fun v => (lo <=? v_effective_balance v) && (v_effective_balance v <=? hi)) (validators s) = true -> stakes_between lo hi s.
Proof. intros H. unfold stakes_between. rewrite Forall_forall. rewrite forallb_forall in H. intros v Hv. specialize (H v Hv). lia. Qed.
Lemma tiny_bounded' : effective_bounded (tiny_state 6 9).
Proof.
  assert (H : stakes_between 0 (2 ^ 44) (tiny_state 6 9)) by (apply stakes_check; vm_compute; reflexivity).
  intros v Hv. unfold stakes_between in H. rewrite Forall_forall in H. apply (H v Hv).
Qed.
Example C92_example : ctx_sane tiny /\ hash_wf (hash tiny) /\ state_shape tiny (tiny_state 6 9) /\ slot_small (tiny_state 6 9)
  /\ effective_bounded (tiny_state 6 9) /\ N.of_nat (fuel tiny) < 2 ^ 60 /\ 0 < SYNC_COMMITTEE_SIZE tiny
  /\ active_set (tiny_state 6 9) (epoch_of tiny (tiny_state 6 9)) = [0; 1; 2; 3; 4; 5]
  /\ get_beacon_proposer_index tiny (tiny_state 6 9) = Ok 2
  /\ match get_next_sync_committee tiny (tiny_state 6 9) with Ok c => lenN (sc_public_keys c) = 4 | _ => False end
  /\ map (tickets (MAX_EFFECTIVE_BALANCE tiny)) [0; 16000000000; 31000000000; 32000000000] = [1; 128; 248; 256].
Proof.
  split; [exact tiny_sane|]. split; [exact toy_hash_wf|]. split; [apply tiny_shape; vm_compute; discriminate|].
  split; [vm_compute; reflexivity|]. split; [apply tiny_bounded'|].
  split; [vm_compute; reflexivity|]. split; [vm_compute; reflexivity|]. split; [vm_compute; reflexivity|]. split; [vm_compute; reflexivity|].
  split; [vm_compute; reflexivity|]. vm_compute. reflexivity.
Qed.
(** a validator with 64 times the stake of each of the others should hold 256 tickets to their 4; it is chosen exactly as often as they are *)
Example C92_electra_example : only_stakes_differ (tiny_state 6 9) (whale (tiny_state 6 9))
  /\ stakes_between (MAX_EFFECTIVE_BALANCE tiny) (2 ^ 44) (tiny_state 6 9) /\ stakes_between (MAX_EFFECTIVE_BALANCE tiny) (2 ^ 44) (whale (tiny_state 6 9))
  /\ map (fun i => tickets (stake_cap tiny Electra) (effective_balance_of (whale (tiny_state 6 9)) i)) [0; 1; 5] = [256; 4; 4]
  /\ get_beacon_proposer_index tiny (whale (tiny_state 6 9)) = Ok 2.
Proof.
  split; [split; [reflexivity|]; split; [reflexivity|]; repeat constructor|].
  split; [apply stakes_check; vm_compute; reflexivity|]. split; [apply stakes_check; vm_compute; reflexivity|].
  split; vm_compute; reflexivity.
Qed.

Print Assumptions C92_proposer_partial.
Print Assumptions C92_sync_committee_partial.
Print Assumptions C92_electra_proposer_refuted.
Print Assumptions C92_electra_sync_committee_refuted.
