(** * Property theorems: importing a signed block does not crash the node (C84)

    [state_transition] advances the state to the slot of the block, checks the signature, processes the block and compares the
    state root.  Its crash freedom is that of the parts (C74, C81, C82) plus one fact of its own: the state a block meets after the
    epoch transition still satisfies what block processing relies on. *)
From Verif Require Import Base BaseLemmas Types Ctx Env Presets Helpers HelpersAltair HelpersElectra Block Epoch Transition StLemmas
  SpecCommon SpecShuffle SpecHelpers SpecElectra SpecOps SpecBlock SpecAtt SpecFlow SpecFinality SpecSlots SpecEpoch SpecRegistry SpecQueues SpecPhase0 SpecTotal SpecCrash
  HelperProofs HelperProofs2 FlowProofs BlockProofs PropsAtt PropsEpoch PropsTotal CrashProofs CrashElectra CrashSlots CrashEpoch CrashEpoch2 PropsCrash PropsCrash2 Toy ToyCtx Toy2 Toy3.

(** the first slot of the next epoch *)
Definition next_epoch_start (E : Env) (s : BeaconState) : N := (epoch_of E s + 1) * SLOTS_PER_EPOCH E.

(** ** a block of the same epoch, earlier ones and those of the same slot included *)
Theorem C84_same_epoch : forall (E : Env) (f : Fork) (validate : bool) (sb : SignedBeaconBlock) (s : BeaconState),
  crash_config E -> f <> Electra -> block_bounds E f s ->
  block_fits (bk_body (sb_message sb)) -> vote_keeps_deposits E (bk_body (sb_message sb)) s ->
  bk_slot (sb_message sb) < next_epoch_start E s -> bk_slot (sb_message sb) < 2 ^ 56 ->
  fst (state_transition E f validate sb s) <> Panic.
Proof.
  intros E f v sb s (C1 & C2 & C3 & C4 & C5 & C6 & C7 & C8 & C9) Hf B Hfit Hv Hin Hs.
  eapply (transition_safe E C1 C7 C8); [apply (safe_slots E C1 C8); [apply B|exact Hs|exact Hin]|].
  intros t [M Ht]. apply block_safe; try assumption; [apply (moved_bounds E f s); [exact M|unfold slot_small; rewrite Ht; exact Hs|exact B]|apply (moved_vote E _ s); assumption].
Qed.
(** electra: in a build with overflow checks for blocks without consolidations, in a release build for all blocks *)
Theorem C84_same_epoch_electra : forall (E : Env) (validate : bool) (sb : SignedBeaconBlock) (s : BeaconState),
  crash_config E -> (chk E = true -> bb_consolidations (bk_body (sb_message sb)) = []) -> block_bounds E Electra s -> queues_sound s ->
  block_fits (bk_body (sb_message sb)) -> requests_fit (bk_body (sb_message sb)) ->
  bk_slot (sb_message sb) < next_epoch_start E s -> bk_slot (sb_message sb) < 2 ^ 56 ->
  fst (state_transition E Electra validate sb s) <> Panic.
Proof.
  intros E v sb s (C1 & C2 & C3 & C4 & C5 & C6 & C7 & C8 & C9) Hc B HQ Hfit Hr Hin Hs.
  eapply (transition_safe E C1 C7 C8); [apply (safe_slots E C1 C8); [apply B|exact Hs|exact Hin]|].
  intros t [M Ht]. apply block_safe_electra; try assumption; [apply (moved_bounds E Electra s); [exact M|unfold slot_small; rewrite Ht; exact Hs|exact B]|apply (moved_queues s); assumption].
Qed.
(** ** a block of the next epoch: the epoch transition runs in between *)
Theorem C84_next_epoch : forall (E : Env) (f : Fork) (validate : bool) (sb : SignedBeaconBlock) (s : BeaconState),
  crash_config E -> ctx_sane_epoch E -> hashing_total E -> f <> Electra ->
  within_bounds E f s -> block_bounds E f s -> next_epoch_bounds E f s -> active_set s (epoch_of E s + 1) <> [] ->
  block_fits (bk_body (sb_message sb)) -> vote_keeps_deposits E (bk_body (sb_message sb)) s ->
  next_epoch_start E s <= bk_slot (sb_message sb) -> bk_slot (sb_message sb) < next_epoch_start E s + SLOTS_PER_EPOCH E -> bk_slot (sb_message sb) < 2 ^ 56 ->
  fst (state_transition E f validate sb s) <> Panic.
Proof.
  intros E f v sb s (C1 & C2 & C3 & C4 & C5 & C6 & C7 & C8 & C9) Hep Hh Hf W B NE Hact Hfit Hv Hlo Hhi Hs.
  eapply (transition_safe E C1 C7 C8); [apply (slots_next E C1 C3 C4 Hep Hh C2 C6 C8 f s (bk_body (sb_message sb))); assumption|].
  intros t [B' V']. apply block_safe; assumption.
Qed.
(** what makes the next block safe again: the state after the boundary is fit for blocks, so C81 applies to it *)
Theorem C84_boundary_keeps_bounds : forall (E : Env) (f : Fork) (s t : BeaconState) (target : N),
  crash_config E -> ctx_sane_epoch E -> hashing_total E -> f <> Electra ->
  within_bounds E f s -> block_bounds E f s -> next_epoch_bounds E f s -> active_set s (epoch_of E s + 1) <> [] ->
  next_epoch_start E s <= target -> target < next_epoch_start E s + SLOTS_PER_EPOCH E -> target < 2 ^ 56 ->
  process_slots E f target s = (Ok tt, t) -> block_bounds E f t.
Proof.
  intros E f s t target (C1 & C2 & C3 & C4 & C5 & C6 & C7 & C8 & C9) Hep Hh Hf W B NE Hact Hlo Hhi Hs Ht.
  set (body := mkBody [] (eth1_data s) [] [] [] [] [] [] (mkSyncAgg [] []) (bb_execution_payload (tiny_body s 0)) [] [] []).
  assert (Hv : vote_keeps_deposits E body s) by (intros _; apply B).
  pose proof (slots_next E C1 C3 C4 Hep Hh C2 C6 C8 f s body target Hf W B NE Hv Hact Hlo Hhi Hs s eq_refl) as H. rewrite Ht in H. apply H.
Qed.
(** electra: the stake is bounded directly, since a validator may hold up to 2048 ETH *)
Theorem C84_next_epoch_electra : forall (E : Env) (validate : bool) (sb : SignedBeaconBlock) (s : BeaconState),
  crash_config E -> ctx_sane_epoch E -> narrow_band E -> hashing_total E -> (chk E = true -> bb_consolidations (bk_body (sb_message sb)) = []) ->
  within_bounds E Electra s -> block_bounds E Electra s -> queues_sound s -> next_epoch_electra E s -> active_set s (epoch_of E s + 1) <> [] ->
  block_fits (bk_body (sb_message sb)) -> requests_fit (bk_body (sb_message sb)) ->
  next_epoch_start E s <= bk_slot (sb_message sb) -> bk_slot (sb_message sb) < next_epoch_start E s + SLOTS_PER_EPOCH E -> bk_slot (sb_message sb) < 2 ^ 56 ->
  fst (state_transition E Electra validate sb s) <> Panic.
Proof.
  intros E v sb s (C1 & C2 & C3 & C4 & C5 & C6 & C7 & C8 & C9) Hep Hnb Hh Hc W B HQ NE Hact Hfit Hr Hlo Hhi Hs.
  eapply (transition_safe E C1 C7 C8); [apply (slots_next_electra E C1 C3 C4 Hep Hh Hnb C2 C6 C8 s); assumption|].
  intros t [B' Q']. apply block_safe_electra; assumption.
Qed.
Theorem C84_boundary_keeps_bounds_electra : forall (E : Env) (s t : BeaconState) (target : N),
  crash_config E -> ctx_sane_epoch E -> narrow_band E -> hashing_total E ->
  within_bounds E Electra s -> block_bounds E Electra s -> queues_sound s -> next_epoch_electra E s -> active_set s (epoch_of E s + 1) <> [] ->
  next_epoch_start E s <= target -> target < next_epoch_start E s + SLOTS_PER_EPOCH E -> target < 2 ^ 56 ->
  process_slots E Electra target s = (Ok tt, t) -> block_bounds E Electra t /\ queues_sound t.
Proof.
  intros E s t target (C1 & C2 & C3 & C4 & C5 & C6 & C7 & C8 & C9) Hep Hnb Hh W B HQ NE Hact Hlo Hhi Hs Ht.
  pose proof (slots_next_electra E C1 C3 C4 Hep Hh Hnb C2 C6 C8 s target W B HQ NE Hact Hlo Hhi Hs s eq_refl) as H. rewrite Ht in H. exact H.
Qed.

(** ** Examples *)
Lemma crash_toy_within f : f = Phase0 \/ f = Deneb -> within_bounds tiny f crash_toy.
Proof.
  intros Hf. constructor.
  - exact (tiny_shape 4 13 ltac:(vm_compute; discriminate)).
  - vm_compute. reflexivity.
  - split; [reflexivity|]. intros _. repeat split; reflexivity.
  - apply crash_toy_bounds.
  - vm_compute. reflexivity.
  - vm_compute. discriminate.
  - apply (all_of (fun x => x <? 2 ^ 22)); [intros x Hx; apply N.ltb_lt; exact Hx|vm_compute; reflexivity].
  - destruct Hf as [-> | ->]; vm_compute; reflexivity.
  - destruct Hf as [-> | ->]; vm_compute; reflexivity.
  - assert (H : exits_below crash_toy (2 ^ 61)) by apply (crash_toy_bounds Deneb). destruct Hf as [-> | ->]; exact H.
  - vm_compute. repeat split; discriminate.
  - destruct Hf as [-> | ->]; discriminate.
  - intros ->. split; [intros a Ha; vm_compute in Ha; contradiction|]. split; [intros a Ha; vm_compute in Ha; contradiction|]. vm_compute. reflexivity.
Qed.
Lemma crash_toy_next f : next_epoch_bounds tiny f crash_toy.
Proof.
  constructor.
  - vm_compute. reflexivity.
  - vm_compute. reflexivity.
  - refine (all_of (fun v => v_exit_epoch v =? FAR_FUTURE_EPOCH) (fun v => v_exit_epoch v <> FAR_FUTURE_EPOCH -> v_exit_epoch v < 2 ^ 60) (validators crash_toy) _ _); [|vm_compute; reflexivity].
    intros v Hv Hne. apply N.eqb_eq in Hv. contradiction.
  - intros _. split; [|vm_compute; discriminate].
    refine (all_of (fun pk => existsb (fun v => bytes_eqb (v_public_key v) pk) (validators crash_toy)) _ _ _ _); [|vm_compute; reflexivity].
    intros pk Hpk. apply existsb_exists in Hpk as (v & Hv & He). apply bytes_eqb_iff in He. exists v. auto.
Qed.
(** a block for [n], built on the advanced state *)
Definition later_block (f : Fork) (n p : N) : SignedBeaconBlock := mkSignedBlock (tiny_block (snd (process_slots tiny f n crash_toy)) p) [].
(** the first blocks of the same and of the next epoch: accepted from the right proposer, refused from another *)
Example C84_example : forall f, f = Phase0 \/ f = Deneb ->
  (crash_config tiny /\ ctx_sane_epoch tiny /\ hashing_total tiny /\ within_bounds tiny f crash_toy /\ block_bounds tiny f crash_toy /\ next_epoch_bounds tiny f crash_toy
    /\ active_set crash_toy (epoch_of tiny crash_toy + 1) <> [])
  /\ (bk_slot (sb_message (later_block f 15 0)) = 15 /\ next_epoch_start tiny crash_toy = 16 /\ bk_slot (sb_message (later_block f 17 1)) = 17)
  /\ (forall n p, In (n, p) [(15, 0); (17, 1); (17, 2)] -> block_fits (bk_body (sb_message (later_block f n p))) /\ vote_keeps_deposits tiny (bk_body (sb_message (later_block f n p))) crash_toy)
  /\ fst (state_transition tiny f false (later_block f 15 0) crash_toy) = Ok tt
  /\ fst (state_transition tiny f false (later_block f 17 1) crash_toy) = Ok tt
  /\ fst (state_transition tiny f false (later_block f 17 2) crash_toy) = Err EHdrProposerIndexMismatch.
Proof.
  intros f Hf. split.
  { split; [exact tiny_crash_config|]. split; [exact tiny_sane_epoch|]. split; [exact tiny_hashing|]. split; [apply crash_toy_within; exact Hf|]. split; [apply crash_toy_bounds|]. split; [apply crash_toy_next|]. vm_compute. discriminate. }
  split; [destruct Hf as [-> | ->]; vm_compute; auto|].
  split; [|destruct Hf as [-> | ->]; vm_compute; auto].
  intros n p H. destruct Hf as [-> | ->]; repeat (destruct H as [H|H]; [injection H as <- <-; split; [repeat split; vm_compute; congruence|intros _; vm_compute; discriminate]|]); destruct H.
Qed.

(** electra, with a deposit waiting in the queue *)
Definition crash_toy_e : BeaconState := set_pending_balance_deposits [mkPBD 1 1000000000] crash_toy.
Lemma crash_toy_e_bounds : block_bounds tiny Electra crash_toy_e /\ queues_sound crash_toy_e.
Proof. split; [destruct (crash_toy_bounds Electra); constructor; assumption|exact crash_toy_queues]. Qed.
Lemma crash_toy_e_within : within_bounds tiny Electra crash_toy_e.
Proof.
  constructor.
  - exact (tiny_shape 4 13 ltac:(vm_compute; discriminate)).
  - vm_compute. reflexivity.
  - split; [reflexivity|]. intros _. repeat split; reflexivity.
  - apply crash_toy_e_bounds.
  - vm_compute. reflexivity.
  - vm_compute. discriminate.
  - apply (all_of (fun x => x <? 2 ^ 22)); [intros x Hx; apply N.ltb_lt; exact Hx|vm_compute; reflexivity].
  - vm_compute. reflexivity.
  - vm_compute. reflexivity.
  - repeat split; vm_compute; reflexivity.
  - vm_compute. repeat split; discriminate.
  - intros _. split; [|split; [vm_compute; reflexivity|intros c []]]. intros d [<-|[]]. vm_compute. reflexivity.
  - discriminate.
Qed.
Lemma crash_toy_e_next : next_epoch_electra tiny crash_toy_e.
Proof.
  constructor.
  - vm_compute. reflexivity.
  - refine (all_of (fun v => v_exit_epoch v =? FAR_FUTURE_EPOCH) (fun v => v_exit_epoch v <> FAR_FUTURE_EPOCH -> v_exit_epoch v < 2 ^ 59) (validators crash_toy) _ _); [|vm_compute; reflexivity].
    intros v Hv Hne. apply N.eqb_eq in Hv. contradiction.
  - vm_compute. reflexivity.
  - exact (ne_committee _ _ _ (crash_toy_next Deneb) ltac:(discriminate)).
Qed.
Definition later_block_e (n p : N) : SignedBeaconBlock := mkSignedBlock (tiny_block (snd (process_slots tiny Electra n crash_toy_e)) p) [].
Example C84_electra_example :
  narrow_band tiny /\ within_bounds tiny Electra crash_toy_e /\ block_bounds tiny Electra crash_toy_e /\ queues_sound crash_toy_e /\ next_epoch_electra tiny crash_toy_e
  /\ active_set crash_toy_e (epoch_of tiny crash_toy_e + 1) <> []
  /\ (let b := bk_body (sb_message (later_block_e 17 1)) in bb_consolidations b = [] /\ block_fits b /\ requests_fit b)
  /\ bk_slot (sb_message (later_block_e 17 1)) = 17 /\ next_epoch_start tiny crash_toy_e = 16
  /\ balances (snd (process_slots tiny Electra 17 crash_toy_e)) = [31996422300; 32996422300; 31996422300; 31996422300]
  /\ fst (state_transition tiny Electra false (later_block_e 17 1) crash_toy_e) = Ok tt
  /\ fst (state_transition tiny Electra false (later_block_e 17 2) crash_toy_e) = Err EHdrProposerIndexMismatch.
Proof.
  split; [vm_compute; discriminate|]. split; [exact crash_toy_e_within|]. split; [apply crash_toy_e_bounds|]. split; [apply crash_toy_e_bounds|]. split; [exact crash_toy_e_next|].
  split; [vm_compute; discriminate|]. split; [repeat split; vm_compute; congruence|]. split; [vm_compute; reflexivity|]. split; [vm_compute; reflexivity|].
  split; [vm_compute; reflexivity|]. split; vm_compute; reflexivity.
Qed.

Print Assumptions C84_same_epoch.
Print Assumptions C84_same_epoch_electra.
Print Assumptions C84_next_epoch.
Print Assumptions C84_boundary_keeps_bounds.
Print Assumptions C84_next_epoch_electra.
Print Assumptions C84_boundary_keeps_bounds_electra.
