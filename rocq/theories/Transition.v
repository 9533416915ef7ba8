(** * Transition: slot processing and the state transition function

    S = phase0/slot_processing.rs, T = phase0/state_transition.rs; the other forks use textual copies
    (bellatrix/state_transition.rs:13-139 and <fork>/spec/mod.rs). *)
From Verif Require Export Epoch.

Section WithEnv.
Variable E : Env.

(** S 45-80 *)
Definition process_slot (f : Fork) : St BeaconState unit :=
  let* r := rd (fun s =>
    let! root := htr_r E (OState f s) in
    let! i := umod (slot s) (SLOTS_PER_HISTORICAL_ROOT E) in
    let! _ := idx (state_roots s) i in
    Ok (root, i)) in
  md (fun s => set_state_roots (updN (state_roots s) (snd r) (fst r)) s) ;;
  md (fun s => if bytes_eqb (bh_state_root (latest_block_header s)) zero32
               then set_latest_block_header
                      (mkHeader (bh_slot (latest_block_header s)) (bh_proposer_index (latest_block_header s))
                         (bh_parent_root (latest_block_header s)) (fst r) (bh_body_root (latest_block_header s))) s
               else s) ;;
  let* q := rd (fun s =>
    let! root := htr_r E (OHeader (latest_block_header s)) in
    let! i := umod (slot s) (SLOTS_PER_HISTORICAL_ROOT E) in
    let! _ := idx (block_roots s) i in
    Ok (root, i)) in
  md (fun s => set_block_roots (updN (block_roots s) (snd q) (fst q)) s).

(** S 36-40: one iteration of the loop *)
Definition advance_slot (f : Fork) : St BeaconState unit :=
  process_slot f ;;
  let* m := rd (fun s => let! n := add E (slot s) 1 in umod n (SLOTS_PER_EPOCH E)) in
  swhen (m =? 0) (process_epoch E f) ;;
  let* n := rd (fun s => add E (slot s) 1) in
  md (set_slot n).

(** S 35-41; the fuel is the exact number of iterations when each one advances the slot by one *)
Fixpoint slots_loop (f : Fork) (n : nat) (target : N) : St BeaconState unit :=
  let* sl := rd (fun s => Ok (slot s)) in
  if sl <? target then
    match n with
    | O => lift Diverge
    | S n' => advance_slot f ;; slots_loop f n' target
    end
  else sret tt.

(** S 9-43 *)
Definition process_slots (f : Fork) (target : N) : St BeaconState unit :=
  let* sl := rd (fun s => Ok (slot s)) in
  if target <=? sl then lift (Err ETransitionToPreviousSlot)
  else slots_loop f (N.to_nat (target - sl)) target.

(** T 15-65; [validate] is [Validation::Enabled] *)
Definition state_transition_block_in_slot (f : Fork) (validate : bool) (sb : SignedBeaconBlock) : St BeaconState unit :=
  swhen validate (rd (fun s => verify_block_signature E f s sb)) ;;
  process_block E f (sb_message sb) ;;
  swhen validate
    (rd (fun s => let! root := htr_r E (OState f s) in
                  require (bytes_eqb (bk_state_root (sb_message sb)) root) EInvalidStateRoot)).

(** T 67-106 *)
Definition state_transition (f : Fork) (validate : bool) (sb : SignedBeaconBlock) : St BeaconState unit :=
  process_slots f (bk_slot (sb_message sb)) ;;
  state_transition_block_in_slot f validate sb.

End WithEnv.
