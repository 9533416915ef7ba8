(** * Executor: state_transition/executor.rs *)
From Verif Require Export Upgrade.

Section WithEnv.
Variable E : Env.

(** the enum [BeaconState] of types/beacon_state.rs; the executor handles phase0 to deneb *)
Definition ExecState : Type := Fork * BeaconState.

Definition next_fork (g : Fork) : Fork :=
  match g with
  | Phase0 => Altair | Altair => Bellatrix | Bellatrix => Capella | Capella => Deneb | Deneb | Electra => Electra
  end.
(** [self.context.<fork>_fork_epoch] *)
Definition fork_epoch (f : Fork) : N :=
  match f with
  | Phase0 => 0
  | Altair => ALTAIR_FORK_EPOCH E
  | Bellatrix => BELLATRIX_FORK_EPOCH E
  | Capella => CAPELLA_FORK_EPOCH E
  | Deneb => DENEB_FORK_EPOCH E
  | Electra => ELECTRA_FORK_EPOCH E
  end.
Definition upgrade_to (f : Fork) (s : BeaconState) : res BeaconState :=
  match f with
  | Altair => upgrade_to_altair E s
  | Bellatrix => upgrade_to_bellatrix E s
  | Capella => upgrade_to_capella E s
  | Deneb => upgrade_to_deneb E s
  | _ => Ok s
  end.

(** 212-214 and its repetitions: process the slots up to the next fork in fork [g] *)
Definition to_next_fork (g : Fork) : St BeaconState unit :=
  let* sl := lift (mul E (fork_epoch (next_fork g)) (SLOTS_PER_EPOCH E)) in
  process_slots E g sl.

(** the chain of upgrades of a locally owned state from fork [g] to fork [f], [n] forks later *)
Fixpoint chain (n : nat) (g : Fork) (s : BeaconState) : res BeaconState :=
  match n with
  | O => Ok s
  | S n' =>
    let (r, s1) := to_next_fork g s in
    let! _ := r in
    let! s2 := upgrade_to (next_fork g) s1 in
    chain n' (next_fork g) s2
  end.

(** 215-224 and its repetitions *)
Definition apply_after_upgrade (f : Fork) (validate : bool) (sb : SignedBeaconBlock) (s : BeaconState) : res BeaconState :=
  let (r, s') := (if bk_slot (sb_message sb) =? slot s
                  then state_transition_block_in_slot E f validate sb s
                  else state_transition E f validate sb s) in
  let! _ := r in Ok s'.

(** 135-531 ([f] is the variant of the block): the executor's state is mutated in place by the first [process_slots], the
    later steps act on local values which replace it only on success *)
Definition apply_block_with_validation (f : Fork) (validate : bool) (sb : SignedBeaconBlock) : St ExecState unit :=
  fun st =>
    let (g, s) := st in
    if fork_num f <? fork_num g then (Err EInvalidForkTransition, st)
    else if fork_num f =? fork_num g then
      let (r, s') := state_transition E f validate sb s in (r, (g, s'))
    else
      let (r0, s1) := to_next_fork g s in
      let out := (let! _ := r0 in
                  let! s2 := upgrade_to (next_fork g) s1 in
                  let! s3 := chain (N.to_nat (fork_num f - fork_num g) - 1) (next_fork g) s2 in
                  apply_after_upgrade f validate sb s3) in
      match out with
      | Ok s' => (Ok tt, (f, s'))
      | Err e => (Err e, (g, s1))
      | Panic => (Panic, (g, s1))
      | Diverge => (Diverge, (g, s1))
      end.

(** 113-133 *)
Definition apply_block (f : Fork) (sb : SignedBeaconBlock) : St ExecState unit := apply_block_with_validation f true sb.

End WithEnv.
