(** * Proofs that advancing to a block and applying it does not crash (proof file; no model definitions) *)
From Verif Require Import Base BaseLemmas Types Ctx Env Helpers HelpersAltair HelpersElectra Block Epoch Transition StLemmas
  SpecCommon SpecShuffle SpecHelpers SpecElectra SpecOps SpecBlock SpecAtt SpecFlow SpecFinality SpecSlots SpecEpoch SpecRegistry SpecQueues SpecPhase0 SpecTotal SpecCrash
  ShuffleProofs HelperProofs HelperProofs2 OpsProofs ElectraProofs SlashProofs AttProofs BlockProofs FlowProofs FinalityProofs EpochProofs RegistryProofs RewardProofs PeriodicProofs QueueProofs SlotProofs Phase0Proofs TotalProofs CrashProofs CrashElectra.

(** [t] is [s] except for the slot, the latest header and the two root vectors *)
Definition moved (s t : BeaconState) : Prop :=
  exists br h sr n, t = set_slot n (set_block_roots br (set_latest_block_header h (set_state_roots sr s)))
    /\ lenN br = lenN (block_roots s) /\ lenN sr = lenN (state_roots s).
Lemma moved_refl s : moved s s.
Proof. exists (block_roots s), (latest_block_header s), (state_roots s), (slot s). split; [destruct s; reflexivity|auto]. Qed.
Lemma moved_slot s t n : moved s t -> moved s (set_slot n t).
Proof. intros (br & h & sr & m & -> & H). exists br, h, sr, n. auto. Qed.
Lemma moved_header s t x : moved s t -> moved s (set_latest_block_header x t).
Proof. intros (br & h & sr & m & -> & H). exists br, x, sr, m. auto. Qed.
Lemma moved_block_roots s t x : moved s t -> lenN x = lenN (block_roots t) -> moved s (set_block_roots x t).
Proof. intros (br & h & sr & m & -> & H & K) Hx. exists x, h, sr, m. gsh Hx. split; [reflexivity|]. split; congruence. Qed.
Lemma moved_state_roots s t x : moved s t -> lenN x = lenN (state_roots t) -> moved s (set_state_roots x t).
Proof. intros (br & h & sr & m & -> & H & K) Hx. exists br, h, x, m. gsh Hx. split; [reflexivity|]. split; congruence. Qed.
Lemma moved_shape c s t : moved s t -> state_shape c s -> state_shape c t.
Proof. intros (br & h & sr & m & -> & H & K) Hs. unfold state_shape in *. gs. rewrite H, K. exact Hs. Qed.
Lemma moved_bounds E f s t : moved s t -> slot_small t -> block_bounds E f s -> block_bounds E f t.
Proof.
  intros M Hs []. assert (Hsh : state_shape E t) by (apply (moved_shape _ s); assumption). destruct M as (br & h & sr & m & -> & H & K).
  constructor; assumption.
Qed.
Lemma moved_queues s t : moved s t -> queues_sound s -> queues_sound t.
Proof. intros (br & h & sr & m & -> & H & K) Hs. exact Hs. Qed.
Lemma moved_vote E b s t : moved s t -> vote_keeps_deposits E b s -> vote_keeps_deposits E b t.
Proof. intros (br & h & sr & m & -> & H & K) Hs. exact Hs. Qed.

Section C.
Variable E : Env.
Hypothesis Hctx : ctx_sane E.
Hypothesis Hrw : roots_wide E.
Hypothesis Hfuel : N.of_nat (fuel E) < 2 ^ 60.

Definition at_slot (s0 : BeaconState) (n : N) (t : BeaconState) : Prop := moved s0 t /\ slot t = n.

Lemma safe_slot f s0 n : state_shape E s0 -> safe (at_slot s0 n) (process_slot E f) (fun _ => at_slot s0 n).
Proof.
  intros Hsh. assert (Hp : SLOTS_PER_HISTORICAL_ROOT E <> 0) by (unfold ctx_sane in Hctx; lia). unfold process_slot.
  apply (safe_rdX _ _ _ (fun _ => True)).
  { intros t [M _]. destruct (moved_shape _ _ _ M Hsh) as (_ & H2 & _). apply np_skip; [apply np_htr; auto|]. intros r.
    apply (np_bind _ _ (fun i => i < SLOTS_PER_HISTORICAL_ROOT E)); [apply np_mod; [exact Hp|apply N.mod_lt; exact Hp]|]. intros i Hi.
    apply np_skip; [apply np_idx; [rewrite H2; exact Hi|auto]|]. intros _. exact I. }
  intros [root i] _. cbn [fst snd].
  apply (safe_seq _ _ _ (at_slot s0 n)).
  { apply safe_md. intros t [M Hn]. split; [apply moved_state_roots; [exact M|apply lenN_updN]|exact Hn]. }
  intros _. apply (safe_seq _ _ _ (at_slot s0 n)).
  { apply safe_md. intros t [M Hn]. destruct (bytes_eqb _ _); split; try assumption. apply moved_header. exact M. }
  intros _. apply (safe_rdX _ _ _ (fun _ => True)).
  { intros t [M _]. destruct (moved_shape _ _ _ M Hsh) as (H1 & _). apply np_skip; [apply np_htr; auto|]. intros r.
    apply (np_bind _ _ (fun i => i < SLOTS_PER_HISTORICAL_ROOT E)); [apply np_mod; [exact Hp|apply N.mod_lt; exact Hp]|]. intros j Hj.
    apply np_skip; [apply np_idx; [rewrite H1; exact Hj|auto]|]. intros _. exact I. }
  intros [q j] _. apply safe_md. intros t [M Hn]. split; [apply moved_block_roots; [exact M|apply lenN_updN]|exact Hn].
Qed.

Definition epoch_end_of (n : N) : N := (n / SLOTS_PER_EPOCH E + 1) * SLOTS_PER_EPOCH E.
Lemma next_inside n : n + 1 < epoch_end_of n -> (n + 1) mod SLOTS_PER_EPOCH E <> 0 /\ epoch_end_of (n + 1) = epoch_end_of n.
Proof.
  intros H. unfold epoch_end_of in *. assert (Hsp : SLOTS_PER_EPOCH E <> 0) by (unfold ctx_sane in Hctx; lia).
  pose proof (N.div_mod n _ Hsp) as D. pose proof (N.mod_lt n _ Hsp) as M. set (q := n / SLOTS_PER_EPOCH E) in *. set (r := n mod SLOTS_PER_EPOCH E) in *. clearbody q r.
  assert (Hlt : r + 1 < SLOTS_PER_EPOCH E) by nia.
  assert (Hq : n + 1 = SLOTS_PER_EPOCH E * q + (r + 1)) by lia. split.
  - rewrite <- (N.mod_unique _ _ _ _ Hlt Hq). lia.
  - rewrite <- (N.div_unique _ _ _ _ Hlt Hq). reflexivity.
Qed.
Lemma safe_advance f s0 n : state_shape E s0 -> n + 1 < epoch_end_of n -> n + 1 < 2 ^ 56 -> safe (at_slot s0 n) (advance_slot E f) (fun _ => at_slot s0 (n + 1)).
Proof.
  intros Hsh Hin Hs. destruct (next_inside n Hin) as [Hb _]. assert (Hsp : SLOTS_PER_EPOCH E <> 0) by (unfold ctx_sane in Hctx; lia). unfold advance_slot.
  eapply safe_seq; [apply safe_slot; exact Hsh|]. intros _.
  apply (safe_rdX _ _ _ (fun m => m <> 0)).
  { intros t [_ Hn]. rewrite Hn. apply (np_bind _ _ (fun x => x = n + 1)); [apply np_add; [pows; lia|reflexivity]|]. intros x ->. apply np_mod; assumption. }
  intros m Hm. apply (safe_seq _ _ _ (at_slot s0 n)).
  { apply safe_when; [|auto]. intros Hz. apply N.eqb_eq in Hz. contradiction. }
  intros _. apply (safe_rdX _ _ _ (fun x => x = n + 1)).
  { intros t [_ Hn]. rewrite Hn. apply np_add; [pows; lia|reflexivity]. }
  intros x ->. apply safe_md. intros t [M _]. split; [apply moved_slot; exact M|reflexivity].
Qed.
Lemma safe_loop f s0 target : state_shape E s0 -> target < 2 ^ 56 -> forall k n, n + N.of_nat k = target -> target < epoch_end_of n ->
  safe (at_slot s0 n) (slots_loop E f k target) (fun _ => at_slot s0 target).
Proof.
  intros Hsh Ht. induction k as [|k IH]; intros n Hk Hin t Hn.
  - rewrite loop_done by (destruct Hn; lia). replace target with n by lia. exact Hn.
  - rewrite loop_step by (destruct Hn; lia). revert t Hn. change (safe (at_slot s0 n) (sbind (advance_slot E f) (fun _ => slots_loop E f k target)) (fun _ => at_slot s0 target)).
    eapply safe_seq; [apply safe_advance; [exact Hsh|lia|lia]|]. intros _. apply IH; [lia|]. destruct (next_inside n ltac:(lia)) as [_ ->]. exact Hin.
Qed.
Lemma safe_slots f s0 target : state_shape E s0 -> target < 2 ^ 56 -> target < epoch_end_of (slot s0) ->
  safe (fun t => t = s0) (process_slots E f target) (fun _ => at_slot s0 target).
Proof.
  intros Hsh Ht Hin t ->. destruct (N.le_gt_cases target (slot s0)) as [Hle|Hgt].
  - unfold process_slots. rewrite (run_rd _ _ s0 (slot s0)) by reflexivity. destruct (N.leb_spec target (slot s0)); [exact I|lia].
  - rewrite process_slots_loop by exact Hgt. apply (safe_loop f s0 target Hsh Ht _ (slot s0)); [lia|exact Hin|]. split; [apply moved_refl|reflexivity].
Qed.

(** ** signature, block, state root *)
Lemma np_block_signature f s sb : np (verify_block_signature E f s sb) (fun _ => True).
Proof.
  unfold verify_block_signature. apply np_skip; [apply np_getN; auto|]. intros v. apply np_skip; [apply np_domain; auto|]. intros d. apply np_verify. exact I.
Qed.
Lemma safe_block_in_slot f v sb (P : BeaconState -> Prop) : (forall s, P s -> fst (process_block E f (sb_message sb) s) <> Panic) ->
  safe P (state_transition_block_in_slot E f v sb) (fun _ _ => True).
Proof.
  intros H. unfold state_transition_block_in_slot. apply (safe_seq _ _ _ P).
  { apply safe_when; [|auto]. intros _. apply safe_rd. intros s Hs. eapply np_imp; [apply np_block_signature|auto]. }
  intros _. apply (safe_seq _ _ _ (fun _ => True)).
  { intros s Hs. specialize (H s Hs). destruct (process_block E f (sb_message sb) s) as [[]]; auto. }
  intros _. apply safe_when; [|auto]. intros _. apply safe_rd. intros s _. apply np_skip; [apply np_htr; auto|]. intros r. apply np_require. auto.
Qed.
Lemma transition_safe f v sb s (P : BeaconState -> Prop) : safe (fun t => t = s) (process_slots E f (bk_slot (sb_message sb))) (fun _ => P) ->
  (forall t, P t -> fst (process_block E f (sb_message sb) t) <> Panic) -> fst (state_transition E f v sb s) <> Panic.
Proof.
  intros H1 H2. assert (H : safe (fun t => t = s) (state_transition E f v sb) (fun _ _ => True)).
  { unfold state_transition. eapply safe_seq; [exact H1|]. intros _. apply safe_block_in_slot. exact H2. }
  specialize (H s eq_refl). destruct (state_transition E f v sb s) as [[]]; cbn; try discriminate. contradiction.
Qed.
End C.
