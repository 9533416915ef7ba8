(** * Property theorems: headers, RANDAO, eth1 data, payloads, credential changes (C21-C24, C39, C40, C44, C47) *)
From Verif Require Import Base BaseLemmas Types Ctx Env Helpers HelpersAltair HelpersElectra Block Epoch Transition StLemmas
  SpecCommon SpecShuffle SpecHelpers SpecOps SpecBlock SpecRegistry SpecHistory HelperProofs HelperProofs2 OpsProofs BlockProofs HistoryProofs
  Toy ToyCtx Toy2 Toy3.
From Coq Require Import Sorted.

(** ** C21: block header acceptance *)
Theorem C21_header_acceptance : forall (E : Env) (f : Fork) (b : BeaconBlock) (s : BeaconState) (p : N) (v : Validator) (r : Root),
  get_beacon_proposer_index E s = Ok p -> nthN (validators s) p = Some v -> htr E (OBody f (bk_body b)) = Some r ->
  (header_acceptable E s b p -> v_slashed v = false ->
     process_block_header E f b s =
       (Ok tt, set_latest_block_header (mkHeader (slot s) p (bk_parent_root b) (repeat 0 32) r) s))
  /\ (header_acceptable E s b p -> v_slashed v = true -> fst (process_block_header E f b s) = Err EHdrProposerSlashed)
  /\ (~ header_acceptable E s b p -> rejected (process_block_header E f b) s).
Proof.
  intros E f b s p v r Hp Hv Hr. pose proof (header_checks_iff E f b s p r Hp Hr) as Hiff.
  assert (Hacc : header_acceptable E s b p -> process_block_header E f b s =
    (require (negb (v_slashed v)) EHdrProposerSlashed, set_latest_block_header (mkHeader (slot s) p (bk_parent_root b) (repeat 0 32) r) s)).
  { intros Ha. unfold process_block_header.
    rewrite (run_rd _ _ _ (mkHeader (bk_slot b) (bk_proposer_index b) (bk_parent_root b) zero32 r)) by (apply Hiff; split; [exact Ha|reflexivity]). rewrite run_md. unfold rd. gs.
    destruct Ha as (H1 & _ & -> & _). rewrite (proj2 (idx_ok _ _ _) Hv). cbn [rbind]. rewrite H1. reflexivity. }
  split; [|split].
  - intros Ha Hs. rewrite Hacc by exact Ha. rewrite Hs. reflexivity.
  - intros Ha Hs. rewrite Hacc by exact Ha. rewrite Hs. reflexivity.
  - intros Ha. unfold process_block_header. apply guard_rejects. apply not_ok. intros hdr Hh. apply Hiff in Hh. apply Ha, Hh.
Qed.
Example C21_example :
  get_beacon_proposer_index tiny slash_toy = Ok 1 /\ htr tiny (OBody Altair (tiny_body slash_toy 1)) <> None
  /\ header_acceptable tiny slash_toy (tiny_block slash_toy 1) 1
  /\ fst (process_block_header tiny Altair (tiny_block slash_toy 1) slash_toy) = Ok tt
  /\ fst (process_block_header tiny Altair (tiny_block slash_toy 2) slash_toy) = Err EHdrProposerIndexMismatch.
Proof. split; [vm_compute; reflexivity|]. split; [discriminate|]. split; [vm_compute; repeat split|]. split; vm_compute; reflexivity. Qed.

(** ** C22: at most one block per slot *)
(** Once a header has been accepted, every later block (of any fork's rules) is refused without touching the state, whether or not
    the rest of the first block succeeded, until the slot counter moves. *)
Lemma header_at_slot_rejects E f b s : bh_slot (latest_block_header s) = slot s ->
  is_ok (fst (process_block E f b s)) = false /\ snd (process_block E f b s) = s.
Proof.
  intros H. assert (Hx : exists e, process_block_header E f b s = (Err e, s)).
  { unfold process_block_header, sbind, rd. destruct (N.eqb_spec (bk_slot b) (slot s)) as [He|He]; [|eexists; reflexivity]. cbn [require rbind].
    destruct (N.ltb_spec (bh_slot (latest_block_header s)) (bk_slot b)); [lia|]. eexists; reflexivity. }
  destruct Hx as [e Hx]. rewrite process_block_split. unfold sbind. rewrite Hx. split; reflexivity.
Qed.
Theorem C22_one_block_per_slot : forall (E : Env) (f g : Fork) (b b' : BeaconBlock) (between : list (Fork * BeaconBlock)) (s s1 s2 : BeaconState),
  fst (process_block_header E f b s) = Ok tt ->
  s1 = snd (process_block E f b s) ->
  s2 = fold_left (fun s x => snd (process_block E (fst x) (snd x) s)) between s1 ->
  s2 = s1 /\ rejected (process_block E g b') s2.
Proof.
  intros E f g b b' between s s1 s2 Hh -> ->.
  assert (Hs1 : bh_slot (latest_block_header (snd (process_block E f b s))) = slot (snd (process_block E f b s))).
  { rewrite process_block_split. destruct (process_block_header E f b s) as [r0 sh] eqn:Hp. cbn in Hh. subst r0.
    rewrite (run_bind _ _ _ _ _ Hp). destruct (hk_rest E f b sh) as [H1 H2]. rewrite H1, H2. clear H1 H2.
    unfold process_block_header in Hp. sinv Hp. apply rbind_ok_inv in Hp0 as (? & Hq & Hp0). apply require_ok, N.eqb_eq in Hq. rinv Hp0. subst x. gs. exact Hq. }
  assert (Hf : fold_left (fun s x => snd (process_block E (fst x) (snd x) s)) between (snd (process_block E f b s)) = snd (process_block E f b s)).
  { induction between as [|x l IH]; [reflexivity|]. cbn [fold_left]. rewrite (proj2 (header_at_slot_rejects E (fst x) (snd x) _ Hs1)). exact IH. }
  split; [exact Hf|]. rewrite Hf. apply header_at_slot_rejects. exact Hs1.
Qed.
(** a second block is refused in the same slot and accepted by the header check after one more slot *)
Example C22_example : let s1 := snd (process_block_header tiny Altair (tiny_block slash_toy 1) slash_toy) in
  fst (process_block_header tiny Altair (tiny_block slash_toy 1) slash_toy) = Ok tt
  /\ fst (process_block_header tiny Altair (tiny_block s1 1) s1) = Err EHdrOlderThanLatestBlockHeader.
Proof. split; vm_compute; reflexivity. Qed.

(** ** C23: RANDAO *)
Theorem C23_randao : forall (E : Env) (b : BeaconBlockBody) (s : BeaconState) (p : N) (v : Validator) (mix : bytes),
  ctx_sane E -> state_shape E s -> get_beacon_proposer_index E s = Ok p -> nthN (validators s) p = Some v ->
  nthN (randao_mixes s) (mix_position E s) = Some mix ->
  let valid := signed_by E s [2; 0; 0; 0] (epoch_of E s) (OU64 (epoch_of E s)) (v_public_key v) (bb_randao_reveal b) in
  (valid -> process_randao E b s =
     (Ok tt, set_randao_mixes (updN (randao_mixes s) (mix_position E s) (xorB mix (hash E (bb_randao_reveal b)))) s))
  /\ (~ valid -> rejected (process_randao E b) s).
Proof. intros E b s p v mix Hc Hsh Hp Hv Hm. apply (randao_run E Hc b s p v mix Hp Hv Hsh Hm). Qed.
(** mixing in means xor byte by byte, and mixing the same hash in twice restores the mix *)
Theorem C23_mix_is_xor : forall (a b : bytes), lenN a = lenN b ->
  (forall i x y, nthN a i = Some x -> nthN b i = Some y -> nthN (xorB a b) i = Some (N.lxor x y))
  /\ lenN (xorB a b) = lenN a /\ xorB (xorB a b) b = a.
Proof. intros a b H. split; [intros i x y; apply xorB_nth|]. split; [apply xorB_len; exact H|apply xorB_twice; exact H]. Qed.
Theorem C23_reveal_twice : forall (E : Env) (b : BeaconBlockBody) (s s1 s2 : BeaconState),
  ctx_sane E -> state_shape E s -> hash_wf (hash E) -> (forall m, In m (randao_mixes s) -> lenN m = 32) ->
  process_randao E b s = (Ok tt, s1) -> process_randao E b s1 = (Ok tt, s2) -> s2 = s.
Proof.
  intros E b s s1 s2 Hc Hsh Hh Hl H1 H2. destruct (mix_ok E Hc s Hsh) as (mix & Hm & _).
  assert (Hrun : forall s s', process_randao E b s = (Ok tt, s') -> state_shape E s -> forall m, nthN (randao_mixes s) (mix_position E s) = Some m ->
     s' = set_randao_mixes (updN (randao_mixes s) (mix_position E s) (xorB m (hash E (bb_randao_reveal b)))) s).
  { intros a a' H Ha m Hma. assert (exists p v, get_beacon_proposer_index E a = Ok p /\ nthN (validators a) p = Some v) as (p & v & Hp & Hv).
    { pose proof H as H'. unfold process_randao in H'. sinv H'. rinv H'0. eauto. }
    destruct (randao_run E Hc b a p v m Hp Hv Ha Hma) as [Hr1 Hr2].
    assert (Hdec : is_ok (fst (process_randao E b a)) = true) by (rewrite H; reflexivity).
    assert (Hs : signed_by E a [2; 0; 0; 0] (epoch_of E a) (OU64 (epoch_of E a)) (v_public_key v) (bb_randao_reveal b)).
    { pose proof H as H'. unfold process_randao in H'. sinv H'. rewrite Hp in H'0. cbn [rbind] in H'0. rewrite (proj2 (idx_ok _ _ _) Hv) in H'0. cbn [rbind] in H'0.
      rewrite (current_epoch_ok E Hc) in H'0. cbn [rbind] in H'0. apply rbind_ok_inv in H'0 as (d & Hd & H'0). apply rbind_ok_inv in H'0 as ([] & Hver & _).
      apply map_err_ok in Hver. apply (signed_by_iff E a DRandao). eauto. }
    rewrite (Hr1 Hs) in H. congruence. }
  pose proof (Hrun s s1 H1 Hsh mix Hm) as Hs1. subst s1.
  set (h := hash E (bb_randao_reveal b)) in *. set (s1 := set_randao_mixes _ s) in *.
  assert (Hpos : mix_position E s1 = mix_position E s) by reflexivity.
  assert (Hlt : mix_position E s < lenN (randao_mixes s)) by (eapply nthN_some; eauto).
  assert (Hm1 : nthN (randao_mixes s1) (mix_position E s1) = Some (xorB mix h)).
  { rewrite Hpos. unfold s1. gs. apply nthN_updN_eq. exact Hlt. }
  assert (Hsh1 : state_shape E s1).
  { destruct Hsh as (A1 & A2 & A3 & A4 & A5 & A6). unfold s1, state_shape. gs. rewrite lenN_updN. auto 6. }
  rewrite (Hrun s1 s2 H2 Hsh1 _ Hm1). rewrite Hpos. unfold s1. gs.
  assert (Hlen : lenN mix = lenN h) by (rewrite (Hl mix (nthN_In _ _ _ Hm)); unfold lenN, h; rewrite (proj1 (Hh _)); reflexivity).
  rewrite xorB_twice by exact Hlen. rewrite updN_updN, updN_id by exact Hm. apply set_randao_mixes_id.
Qed.
Example C23_example : state_shape tiny slash_toy /\ get_beacon_proposer_index tiny slash_toy = Ok 1
  /\ fst (process_randao tiny (tiny_body slash_toy 1) slash_toy) = Ok tt
  /\ fst (process_randao tiny (tiny_body slash_toy 2) slash_toy) = Err ERandao.
Proof. split; [apply tiny_shape; vm_compute; discriminate|]. split; [vm_compute; reflexivity|]. split; vm_compute; reflexivity. Qed.

(** ** C24: eth1 data *)
Theorem C24_eth1_vote : forall (E : Env) (b : BeaconBlockBody) (s : BeaconState),
  lenN (eth1_data_votes s) < 2 ^ 62 -> voting_period E < 2 ^ 64 ->
  let votes := eth1_data_votes s ++ [bb_eth1_data b] in
  (has_majority E (bb_eth1_data b) votes ->
     process_eth1_data E b s = (Ok tt, set_eth1_data (bb_eth1_data b) (set_eth1_data_votes votes s)))
  /\ (~ has_majority E (bb_eth1_data b) votes -> process_eth1_data E b s = (Ok tt, set_eth1_data_votes votes s)).
Proof.
  intros E b s Hl Hp votes. rewrite (eth1_run E b s Hl Hp). unfold eth1_after. fold votes. unfold has_majority.
  destruct (N.ltb_spec (voting_period E) (2 * votes_for (bb_eth1_data b) votes)); split; intros H'; try lia; [reflexivity|].
  f_equal.
Qed.
(** within a voting period (which starts without votes and has room for one vote per slot) the recorded eth1 data is the old one or one
    fixed new one, however the blocks vote *)
Theorem C24_one_candidate_per_period : forall (E : Env) (s : BeaconState) (blocks : list BeaconBlockBody),
  eth1_data_votes s = [] -> lenN blocks <= voting_period E -> voting_period E < 2 ^ 62 ->
  exists winner, forall k s', sfor (firstN k blocks) (process_eth1_data E) s = (Ok tt, s') ->
    eth1_data s' = eth1_data s \/ eth1_data s' = winner.
Proof.
  intros E s blocks Hv Hl Hp. set (all := map bb_eth1_data blocks).
  assert (Hall : lenN all <= voting_period E) by (unfold all; rewrite lenN_map; exact Hl).
  assert (Hstep : forall k s', sfor (firstN k blocks) (process_eth1_data E) s = (Ok tt, s') -> eth1_data s' = eth1_data s \/ has_majority E (eth1_data s') all).
  { intros k s' H. rewrite eth1_run_all in H.
    - apply (f_equal snd) in H. cbn [snd] in H. subst s'. destruct (eth1_fold E (firstN k blocks) s) as [H1 H2]. rewrite Hv in H1. cbn [app] in H1.
      destruct H2 as [H2|H2]; [left; exact H2|]. right. rewrite H1 in H2. unfold all, firstN in *.
      rewrite <- (firstn_skipn (N.to_nat k) blocks) at 2. rewrite map_app. apply majority_prefix. exact H2.
    - rewrite Hv. change (lenN []) with 0. assert (lenN (firstN k blocks) <= lenN blocks) by (unfold lenN, firstN; rewrite firstn_length; lia). lia.
    - unfold U64. pows. lia. }
  destruct (majority_dec E all) as [[w Hw]|Hnone].
  - exists w. intros k s' H. destruct (Hstep k s' H) as [H1|H1]; [left; exact H1|]. right. eapply majority_unique; eassumption.
  - exists (eth1_data s). intros k s' H. destruct (Hstep k s' H) as [H1|H1]; [left; exact H1|]. exfalso. exact (Hnone _ H1).
Qed.
Example C24_example : let s := tiny_state 4 13 in
  voting_period tiny = 16 /\ eth1_data_votes s = []
  /\ eth1_data (snd (sfor (repeat (tiny_body s 0) 8) (process_eth1_data tiny) s)) = eth1_data s
  /\ eth1_data (snd (sfor (repeat (tiny_body s 0) 9) (process_eth1_data tiny) s)) = bb_eth1_data (tiny_body s 0)
  /\ bb_eth1_data (tiny_body s 0) <> eth1_data s.
Proof. split; [reflexivity|]. split; [reflexivity|]. split; [vm_compute; reflexivity|]. split; [vm_compute; reflexivity|]. vm_compute. discriminate. Qed.

(** ** C39: the merge *)
Theorem C39_merge_predicates : forall (E : Env) (s : BeaconState) (b : BeaconBlockBody),
  (is_merge_transition_complete E s = true <-> ~ header_unset E (latest_execution_payload_header s))
  /\ (is_merge_transition_block E s b = true <->
        header_unset E (latest_execution_payload_header s) /\ ~ payload_unset E (bb_execution_payload b))
  /\ (is_execution_enabled E s b = true <->
        ~ header_unset E (latest_execution_payload_header s) \/ ~ payload_unset E (bb_execution_payload b)).
Proof.
  intros E s b. unfold is_execution_enabled, is_merge_transition_block. pose proof (header_unset_iff E s) as Hh.
  pose proof (payload_unset_iff E (bb_execution_payload b)) as Hp.
  destruct (is_merge_transition_complete E s), (ExecutionPayload_eqb (bb_execution_payload b) (default_payload E)); cbn [negb andb orb];
    intuition congruence.
Qed.
(** before the merge, a bellatrix block with an empty payload is processed without touching the execution layer *)
Theorem C39_before_the_merge : forall (E : Env) (b : BeaconBlock) (s s' : BeaconState),
  header_unset E (latest_execution_payload_header s) -> payload_unset E (bb_execution_payload (bk_body b)) ->
  process_block E Bellatrix b s =
    (process_block_header E Bellatrix b ;; process_randao E (bk_body b) ;; process_eth1_data E (bk_body b) ;;
     process_operations E Bellatrix (bk_body b) ;; process_sync_aggregate E (bb_sync_aggregate (bk_body b))) s.
Proof.
  intros E b s s' Hh Hp. unfold process_block. unfold sbind at 1. symmetry. unfold sbind at 1. symmetry.
  destruct (process_block_header E Bellatrix b s) as [[[]|e| |] s1] eqn:Hb; try reflexivity.
  assert (Hs1 : latest_execution_payload_header s1 = latest_execution_payload_header s).
  { unfold process_block_header in Hb. sinv Hb. gs. reflexivity. }
  assert (Hen : is_execution_enabled E s1 (bk_body b) = false).
  { destruct (is_execution_enabled E s1 (bk_body b)) eqn:He; [|reflexivity]. apply C39_merge_predicates in He. rewrite Hs1 in He. tauto. }
  cbv beta. rewrite sbind_assoc. rewrite (run_rd _ _ _ false) by (rewrite Hen; reflexivity). reflexivity.
Qed.
Example C39_example : let s := tiny_state 4 13 in let d := default_payload tiny in
  header_unset tiny (latest_execution_payload_header s) /\ is_merge_transition_complete tiny s = false
  /\ payload_unset tiny d /\ is_execution_enabled tiny s (tiny_body s 0) = true.
Proof. split; [vm_compute; repeat split|]. split; [vm_compute; reflexivity|]. split; [vm_compute; repeat split|]. vm_compute. reflexivity. Qed.

(** ** C47: versioned hashes *)
Theorem C47_versioned_hash : forall (E : Env) (c c' : bytes), hash_wf (hash E) ->
  is_versioned_hash E c (kzg_commitment_to_versioned_hash E c)
  /\ (kzg_commitment_to_versioned_hash E c = kzg_commitment_to_versioned_hash E c' <-> skipn 1 (hash E c) = skipn 1 (hash E c')).
Proof.
  intros E c c' H. split; [apply versioned_hash_spec; unfold lenN; rewrite (proj1 (H _)); reflexivity|].
  unfold kzg_commitment_to_versioned_hash. split; [intros [= Hx]; exact Hx|intros ->; reflexivity].
Qed.
Example C47_example : hash_wf (hash tiny) /\ kzg_commitment_to_versioned_hash tiny [1] <> kzg_commitment_to_versioned_hash tiny [2].
Proof. split; [exact toy_hash_wf|]. vm_compute. discriminate. Qed.

(** ** C40: execution payload *)
Theorem C40_payload : forall (E : Env) (f : Fork) (b : BeaconBlockBody) (s : BeaconState),
  ctx_sane E -> hash_wf (hash E) -> state_shape E s -> f <> Phase0 -> f <> Altair ->
  genesis_time s + slot s * SECONDS_PER_SLOT E < 2 ^ 64 -> payload_merkleizable E f (bb_execution_payload b) ->
  (payload_acceptable E f s b ->
     exists h, header_of_payload E f (bb_execution_payload b) h
       /\ process_execution_payload E f b s = (Ok tt, set_latest_execution_payload_header h s))
  /\ (~ payload_acceptable E f s b -> rejected (process_execution_payload E f b) s).
Proof.
  intros E f b s Hc Hh Hsh Hf1 Hf2 Ht Hmk. pose proof (payload_checks_iff E Hc f b s Hh Hsh Hf1 Hf2 Ht) as Hiff. unfold process_execution_payload. split.
  - intros Ha. destruct (payload_header_exists E f _ Hmk) as [h Hx]. exists h. split; [apply payload_header_iff; exact Hx|].
    rewrite (run_rd _ _ _ tt) by (apply Hiff; exact Ha). rewrite (run_lift _ _ _ _ Hx). reflexivity.
  - intros Ha. apply guard_rejects. apply not_ok. intros [] Hx. apply Ha, Hiff, Hx.
Qed.
Example C40_example : let s := tiny_state 4 13 in
  payload_merkleizable tiny Deneb (tiny_payload s) /\ genesis_time s + slot s * SECONDS_PER_SLOT tiny < 2 ^ 64
  /\ payload_acceptable tiny Deneb s (tiny_body s 0)
  /\ fst (process_execution_payload tiny Deneb (tiny_body s 0) s) = Ok tt
  /\ eph_block_hash (latest_execution_payload_header (snd (process_execution_payload tiny Deneb (tiny_body s 0) s))) = repeat 5 32.
Proof.
  assert (Hx : fst (process_execution_payload tiny Deneb (tiny_body (tiny_state 4 13) 0) (tiny_state 4 13)) = Ok tt) by (vm_compute; reflexivity).
  cbv zeta. split; [repeat split; intros; discriminate|]. split; [vm_compute; reflexivity|]. split; [|split; [exact Hx|vm_compute; reflexivity]].
  apply (payload_checks_iff tiny tiny_sane); [exact toy_hash_wf|apply tiny_shape; vm_compute; discriminate|discriminate|discriminate|vm_compute; reflexivity|].
  vm_compute. reflexivity.
Qed.

(** ** C44: BLS to execution change *)
Theorem C44_bls_change : forall (E : Env) (op : SignedBlsToExecutionChange) (s : BeaconState),
  (forall v, bls_change_valid E s op v ->
     process_bls_to_execution_change E op s =
       (Ok tt, set_validators (updN (validators s) (bc_validator_index (sbc_message op))
                 (set_v_withdrawal_credentials (address_credentials (bc_to_execution_address (sbc_message op))) v)) s))
  /\ ((forall v, ~ bls_change_valid E s op v) -> rejected (process_bls_to_execution_change E op) s).
Proof.
  intros E op s. unfold process_bls_to_execution_change. split.
  - intros v Hv. rewrite (run_rd _ _ _ (bc_validator_index (sbc_message op))) by (apply bls_checks_iff; eauto).
    destruct Hv as (Hn & _). rewrite (mod_validator_ok s _ _ v Hn). reflexivity.
  - intros Hn. apply guard_rejects. apply not_ok. intros i Hi. apply bls_checks_iff in Hi as ((v & Hv) & _). exact (Hn v Hv).
Qed.
(** it never applies twice to a validator, whatever happens in between, in this fork or a later one *)
Theorem C44_never_twice : forall (E : Env) (f g : Fork) (op op' : SignedBlsToExecutionChange) (s s1 s2 : BeaconState),
  process_bls_to_execution_change E op s = (Ok tt, s1) -> history E (f, s1) (g, s2) ->
  bc_validator_index (sbc_message op') = bc_validator_index (sbc_message op) ->
  rejected (process_bls_to_execution_change E op') s2.
Proof.
  intros E f g op op' s s1 s2 H1 Hh Hi.
  assert (Hex : exists v, bls_change_valid E s op v).
  { unfold process_bls_to_execution_change in H1. sinv H1. apply bls_checks_iff in H0 as [H2 _]. exact H2. }
  destruct Hex as [v Hv]. rewrite (proj1 (C44_bls_change E op s) v Hv) in H1. apply (f_equal snd) in H1. cbn [snd] in H1.
  assert (Hlt : bc_validator_index (sbc_message op) < lenN (validators s)) by (eapply nthN_some; apply Hv).
  assert (Hn1 : nthN (validators s1) (bc_validator_index (sbc_message op)) =
     Some (set_v_withdrawal_credentials (address_credentials (bc_to_execution_address (sbc_message op))) v)).
  { rewrite <- H1. gs. apply nthN_updN_eq. exact Hlt. }
  destruct (proj1 (history_across E (f, s1) (g, s2) Hh) _ _ Hn1) as (v' & Hv' & _ & Hcr).
  apply C44_bls_change. intros w (W1 & W2 & _). rewrite Hi in W1. cbn [snd] in Hv'. assert (w = v') by congruence. subst w.
  destruct Hcr as [Hcr|[[Hk _]|(_ & Hk & _)]]; unfold credential_kind in *.
  - rewrite Hcr in W2. gsh W2. discriminate.
  - gsh Hk. discriminate.
  - congruence.
Qed.
Definition bls_toy_key : bytes := [4; 4].
Definition bls_toy : BeaconState :=
  set_validators (updN (validators (tiny_state 4 13)) 2 (set_v_withdrawal_credentials (0 :: skipn 1 (toy_hash bls_toy_key)) (toy_validator 2))) (tiny_state 4 13).
Definition bls_toy_op : SignedBlsToExecutionChange :=
  let c := mkBlsChange 2 bls_toy_key (repeat 6 20) in
  mkSignedBlsChange c (match compute_domain tiny DBlsToExecutionChange None (Some (genesis_validators_root bls_toy)) with
                       | Ok d => toy_sign bls_toy_key (tiny_signing_root d (OBlsChange c)) | _ => [] end).
Example C44_example : (exists v, bls_change_valid tiny bls_toy bls_toy_op v)
  /\ fst (process_bls_to_execution_change tiny bls_toy_op bls_toy) = Ok tt
  /\ fst (process_bls_to_execution_change tiny bls_toy_op (snd (process_bls_to_execution_change tiny bls_toy_op bls_toy))) = Err EBlsChangePrefix.
Proof.
  split; [|split; vm_compute; reflexivity].
  assert (H : bls_change_checks tiny bls_toy_op bls_toy = Ok 2) by (vm_compute; reflexivity). apply bls_checks_iff in H. apply H.
Qed.

Print Assumptions C21_header_acceptance.
Print Assumptions C22_one_block_per_slot.
Print Assumptions C23_randao.
Print Assumptions C23_mix_is_xor.
Print Assumptions C23_reveal_twice.
Print Assumptions C24_eth1_vote.
Print Assumptions C24_one_candidate_per_period.
Print Assumptions C39_merge_predicates.
Print Assumptions C39_before_the_merge.
Print Assumptions C47_versioned_hash.
Print Assumptions C40_payload.
Print Assumptions C44_bls_change.
Print Assumptions C44_never_twice.
