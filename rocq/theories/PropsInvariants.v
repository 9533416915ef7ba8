(** * Properties over whole histories: C12 (permanence), C28, C29 (cap), C44/C52 (one-way credentials), C76, C77 *)
From Verif Require Import Base BaseLemmas Types Ctx Env Helpers HelpersAltair HelpersElectra Block Epoch Transition Upgrade Genesis Executor
  StLemmas Frame SpecCommon SpecRegistry SpecHistory HelperProofs HelperProofs2 FrameProofs HistoryProofs Toy Toy2.

Definition toy_deposit (i amount : N) : Deposit :=
  let wc := 0 :: repeat 0 31 in
  let msg := mkDepMsg (toy_pk i) wc amount in
  let sig := match htr tiny (ODepositMessage msg), compute_domain tiny DDeposit None None with
             | Some r, Ok d => match htr tiny (OSigningData r d) with Some m => toy_sign (toy_pk i) m | None => [] end
             | _, _ => [] end in
  mkDeposit [] (mkDepData (toy_pk i) wc amount sig).

(** ** C28: the per-validator columns stay aligned and public keys stay unique *)
Theorem C28_registry_aligned : forall (E : Env) (f g : Fork) (block_hash : bytes) (timestamp : N) (deposits : list Deposit)
    (header : option ExecutionPayloadHeader) (s s' : BeaconState),
  initialize_beacon_state_from_eth1 E f block_hash timestamp deposits header = Ok s ->
  history E (f, s) (g, s') ->
  registry_aligned g s' /\ unique_keys s'.
Proof.
  intros E f g bh ts ds h s s' Hg Hh. apply genesis_aligned in Hg as [Ha Hk]. split.
  - exact (history_aligned E (f, s) (g, s') Hh Ha).
  - exact (history_keys E (f, s) (g, s') Hh Hk).
Qed.
(** the same from any state that already has the property, e.g. a checkpoint state *)
Theorem C28_registry_aligned_from : forall (E : Env) (f g : Fork) (s s' : BeaconState), history E (f, s) (g, s') ->
  (registry_aligned f s -> registry_aligned g s') /\ (unique_keys s -> unique_keys s').
Proof.
  intros E f g s s' Hh. split; [exact (history_aligned E (f, s) (g, s') Hh)|exact (history_keys E (f, s) (g, s') Hh)].
Qed.
(** whatever the executor does to its state is such a history *)
Theorem C28_executor_histories : forall (E : Env) (f : Fork) (validate : bool) (sb : SignedBeaconBlock) st r st',
  fork_num f <= fork_num Deneb -> apply_block_with_validation E f validate sb st = (r, st') -> history E st st'.
Proof. intros E f v sb st r st' Hf. apply executor_history. exact Hf. Qed.
(** three deposits, two of them for the same key: two validators; then one slot of processing *)
Definition tiny_genesis : BeaconState :=
  match initialize_beacon_state_from_eth1 tiny Altair zero32 5
          [toy_deposit 0 32000000000; toy_deposit 1 16000000000; toy_deposit 0 1000000000] None with
  | Ok s => s | _ => tiny_state 0 0 end.
Example C28_example :
  initialize_beacon_state_from_eth1 tiny Altair zero32 5
    [toy_deposit 0 32000000000; toy_deposit 1 16000000000; toy_deposit 0 1000000000] None = Ok tiny_genesis
  /\ lenN (validators tiny_genesis) = 2 /\ balances tiny_genesis = [33000000000; 16000000000] /\ inactivity_scores tiny_genesis = [0; 0]
  /\ history tiny (Altair, tiny_genesis) (Altair, snd (process_slots tiny Altair 1 tiny_genesis))
  /\ fst (process_slots tiny Altair 1 tiny_genesis) = Ok tt.
Proof.
  split; [vm_compute; reflexivity|]. split; [vm_compute; reflexivity|]. split; [vm_compute; reflexivity|]. split; [vm_compute; reflexivity|].
  split; [apply hist_call; eapply call_slots; apply surjective_pairing|]. vm_compute. reflexivity.
Qed.

(** ** C76: nothing irrevocable in a validator's record is ever undone *)
Theorem C76_registry_monotone : forall (E : Env) (f g : Fork) (s s' : BeaconState),
  history E (f, s) (g, s') -> (f = Electra \/ g <> Electra) -> registry_later s s'.
Proof. intros E f g s s' H Hf. exact (proj2 (history_across E (f, s) (g, s') H) Hf). Qed.
Theorem C76_registry_monotone_across_electra : forall (E : Env) (f g : Fork) (s s' : BeaconState),
  history E (f, s) (g, s') -> registry_later_across s s'.
Proof. intros E f g s s' H. exact (proj1 (history_across E (f, s) (g, s') H)). Qed.
(** a call that really changes a record: an exit is initiated for an under-funded validator at an epoch boundary *)
Definition toy_ejectable : BeaconState :=
  set_validators (updN (validators (tiny_state 4 3)) 2 (set_v_effective_balance 16000000000 (toy_validator 2))) (tiny_state 4 3).
Example C76_example : history tiny (Phase0, toy_ejectable) (Phase0, snd (process_slots tiny Phase0 4 toy_ejectable))
  /\ fst (process_slots tiny Phase0 4 toy_ejectable) = Ok tt
  /\ option_map v_exit_epoch (nthN (validators toy_ejectable) 2) = Some FAR_FUTURE_EPOCH
  /\ option_map v_exit_epoch (nthN (validators (snd (process_slots tiny Phase0 4 toy_ejectable))) 2) = Some 5.
Proof.
  split; [apply hist_call; eapply call_slots; apply surjective_pairing|]. vm_compute. repeat split.
Qed.

(** ** C12 (permanence): a slashed validator stays slashed through every history, in every fork *)
Theorem C12_slashed_forever : forall (E : Env) (f g : Fork) (s s' : BeaconState) (i : N) (v : Validator),
  history E (f, s) (g, s') -> nthN (validators s) i = Some v -> v_slashed v = true ->
  exists v', nthN (validators s') i = Some v' /\ v_public_key v' = v_public_key v /\ v_slashed v' = true.
Proof.
  intros E f g s s' i v H Hv Hs. destruct (proj1 (history_across E (f, s) (g, s') H) i v Hv) as (v' & Hv' & (R1 & R2 & _) & _).
  exists v'. auto.
Qed.

(** ** C29 (cap): effective balances remain multiples of the increment and within the cap of the fork *)
Theorem C29_effective_balance_capped : forall (E : Env) (f : Fork) (validate : bool) (sb : SignedBeaconBlock) (s : BeaconState),
  let inc := EFFECTIVE_BALANCE_INCREMENT E in
  let cap := N.max (MAX_EFFECTIVE_BALANCE E) (if Fork_eq_dec f Electra then MAX_EFFECTIVE_BALANCE_ELECTRA E else 0) in
  1 <= inc -> MAX_EFFECTIVE_BALANCE E mod inc = 0 -> MAX_EFFECTIVE_BALANCE_ELECTRA E mod inc = 0 ->
  MIN_ACTIVATION_BALANCE E mod inc = 0 -> MIN_ACTIVATION_BALANCE E <= MAX_EFFECTIVE_BALANCE E ->
  (forall v, In v (validators s) -> v_effective_balance v mod inc = 0 /\ v_effective_balance v <= cap) ->
  forall v, In v (validators (snd (state_transition E f validate sb s))) ->
    v_effective_balance v mod inc = 0 /\ v_effective_balance v <= cap.
Proof.
  intros E f validate sb s inc cap H1 H2 H3 H4 H5 Hs v Hv.
  pose proof (evo_all_inv E f (fun s => Forall (effective_ok E f) (validators s)) (fun l a b => effective_prim E f H1 H2 H3 H4 H5 l a b)
                _ _ (evpa_transition E f validate sb s)) as P. cbv beta in P. rewrite !Forall_forall in P.
  apply (P Hs v Hv).
Qed.
Example C29_cap_example :
  1 <= EFFECTIVE_BALANCE_INCREMENT tiny /\ MAX_EFFECTIVE_BALANCE tiny mod EFFECTIVE_BALANCE_INCREMENT tiny = 0
  /\ MAX_EFFECTIVE_BALANCE_ELECTRA tiny mod EFFECTIVE_BALANCE_INCREMENT tiny = 0
  /\ MIN_ACTIVATION_BALANCE tiny mod EFFECTIVE_BALANCE_INCREMENT tiny = 0 /\ MIN_ACTIVATION_BALANCE tiny <= MAX_EFFECTIVE_BALANCE toy
  /\ forallb (fun v => (v_effective_balance v mod EFFECTIVE_BALANCE_INCREMENT tiny =? 0)
                       && (v_effective_balance v <=? MAX_EFFECTIVE_BALANCE toy)) (validators toy_ejectable) = true.
Proof. vm_compute. repeat split; discriminate. Qed.

(** ** C77: what each kind of processing cannot touch *)
Theorem C77_block_frame : forall (E : Env) (f : Fork) (b : BeaconBlock) (s : BeaconState),
  let s' := snd (process_block E f b s) in
  slot s' = slot s /\ genesis_time s' = genesis_time s /\ genesis_validators_root s' = genesis_validators_root s
  /\ fork s' = fork s
  /\ justification_bits s' = justification_bits s /\ previous_justified_checkpoint s' = previous_justified_checkpoint s
  /\ current_justified_checkpoint s' = current_justified_checkpoint s /\ finalized_checkpoint s' = finalized_checkpoint s
  /\ historical_roots s' = historical_roots s /\ historical_summaries s' = historical_summaries s.
Proof.
  intros E f b s s'. pose proof (evp_block E f b s) as H. fold s' in H.
  split; [apply (frame_slot E f LBlock); [exact H|discriminate]|].
  pose proof (frame_identity E f _ _ (evo_all_of E f _ _ _ H)) as (I1 & I2 & I3).
  split; [exact I1|]. split; [exact I2|]. split; [exact I3|].
  destruct (frame_finality E f LBlock s s' H ltac:(discriminate)) as (F1 & F2 & F3 & F4).
  repeat (split; [assumption|]).
  destruct (frame_history E f LBlock s s' H) as (r & h & H1 & H2 & H3). destruct (H3 ltac:(discriminate)) as [-> ->].
  rewrite app_nil_r in *. auto.
Qed.
Theorem C77_epoch_frame : forall (E : Env) (f : Fork) (s : BeaconState),
  let s' := snd (process_epoch E f s) in
  slot s' = slot s /\ genesis_time s' = genesis_time s /\ genesis_validators_root s' = genesis_validators_root s
  /\ fork s' = fork s
  /\ exists rs hs, historical_roots s' = historical_roots s ++ rs /\ historical_summaries s' = historical_summaries s ++ hs.
Proof.
  intros E f s s'. pose proof (evp_epoch E f s) as H. fold s' in H.
  split; [apply (frame_slot E f (LEpoch true)); [exact H|discriminate]|].
  pose proof (frame_identity E f _ _ (evo_all_of E f _ _ _ H)) as (I1 & I2 & I3).
  split; [exact I1|]. split; [exact I2|]. split; [exact I3|].
  destruct (frame_history E f (LEpoch true) s s' H) as (r & h & H1 & H2 & _). exists r, h. auto.
Qed.
(** the fixed-size vectors keep their size and validators are never removed *)
Theorem C77_shape_preserved : forall (E : Env) (f : Fork) (validate : bool) (sb : SignedBeaconBlock) (s : BeaconState),
  let s' := snd (state_transition E f validate sb s) in
  lenN (block_roots s') = lenN (block_roots s) /\ lenN (state_roots s') = lenN (state_roots s)
  /\ lenN (randao_mixes s') = lenN (randao_mixes s) /\ lenN (slashings s') = lenN (slashings s)
  /\ (lenN (justification_bits s) = 4 -> lenN (justification_bits s') = 4)
  /\ lenN (validators s) <= lenN (validators s')
  /\ genesis_time s' = genesis_time s /\ genesis_validators_root s' = genesis_validators_root s /\ fork s' = fork s.
Proof.
  intros E f v sb s s'. pose proof (evpa_transition E f v sb s) as H. fold s' in H.
  destruct (frame_shape E f s s' H) as (S1 & S2 & S3 & S4 & S5 & S6). destruct (frame_identity E f s s' H) as (I1 & I2 & I3). auto 10.
Qed.

Print Assumptions C28_registry_aligned.
Print Assumptions C28_registry_aligned_from.
Print Assumptions C28_executor_histories.
Print Assumptions C76_registry_monotone.
Print Assumptions C76_registry_monotone_across_electra.
Print Assumptions C12_slashed_forever.
Print Assumptions C29_effective_balance_capped.
Print Assumptions C77_block_frame.
Print Assumptions C77_epoch_frame.
Print Assumptions C77_shape_preserved.
