(** * An environment with two slots to an epoch, for examples over several epochs *)
From Verif Require Import Base BaseLemmas Types Ctx Env Helpers HelpersAltair Block Transition Genesis SpecCommon SpecShuffle SpecOps SpecAtt SpecSafety ToyCtx ToyPairCtx Toy Toy2.

(** the root of a header lists the slots of its ancestors, so that branches are easy to tell apart; everything else gets the same root.
    Signatures [[1]] are valid *)
Definition pair_hash (b : bytes) : bytes := repeat (lenN b mod 251) 32.
Definition pair_orc : Oracles := {|
  hash := pair_hash;
  htr := fun o => Some match o with OHeader h => firstN 32 (bh_slot h + 1 :: bh_parent_root h) | _ => zero32 end;
  bls_verify := fun _ _ sig => bytes_eqb sig [1];
  fast_aggregate_verify_ok := fun _ _ sig => bytes_eqb sig [1];
  aggregate_pks := fun _ => Some (toy_pk 0);
  merkle_branch_ok := fun _ _ _ _ _ => true;
  engine_ok := fun _ => true
|}.
Definition pair_env : Env := mkEnv ctx_pair pair_orc true false 100%nat.
Lemma pair_hash_wf : hash_wf pair_hash.
Proof.
  intros b. split; [reflexivity|]. unfold pair_hash. apply Forall_forall. intros x Hx. apply repeat_spec in Hx as ->.
  pose proof (N.mod_lt (lenN b) 251). lia.
Qed.
Lemma pair_sane : ctx_sane pair_env. Proof. check_sane. Qed.
Lemma pair_sane_att : ctx_sane_att pair_env. Proof. vm_compute. repeat split; congruence. Qed.

(** the same with four slots to an epoch *)
Definition quad_env : Env := mkEnv ctx_tiny pair_orc true false 100%nat.
Lemma quad_sane : ctx_sane quad_env. Proof. check_sane. Qed.
Lemma quad_sane_att : ctx_sane_att quad_env. Proof. vm_compute. repeat split; congruence. Qed.

Section Run.
Context (E : Env) (n : N) (f : Fork).
(** genesis with [n] validators of 32 ETH *)
Definition pair_deposits : list Deposit := map (fun i => mkDeposit [] (mkDepData (toy_pk i) (0 :: repeat 0 31) 32000000000 [1])) (rangeN n).
Definition pair_genesis : BeaconState :=
  match initialize_beacon_state_from_eth1 E f zero32 5 pair_deposits None with Ok s => s | _ => tiny_state 0 0 end.
(** the vote of the one member of the committee of slot [sl], as the chain of [s] sees it *)
Definition pair_vote (s : BeaconState) (sl : N) : Attestation :=
  let e := sl / SLOTS_PER_EPOCH E in
  mkAtt [true] (mkAttData sl 0 zero32 (if e =? epoch_of E s then current_justified_checkpoint s else previous_justified_checkpoint s)
    (mkCheckpoint e (match recorded_root E s (e * SLOTS_PER_EPOCH E) with Some r => r | None => [] end))) [] [1].
(** a block with the votes of the given slots *)
Definition pair_block (votes : list N) (s : BeaconState) : BeaconBlock :=
  mkBlock (slot s) (match get_beacon_proposer_index E s with Ok p => p | _ => 0 end) (match htr E (OHeader (latest_block_header s)) with Some r => r | None => [] end) zero32
    (mkBody [1] (mkEth1 zero32 n zero32) zero32 [] [] (map (pair_vote s) votes) [] [] (mkSyncAgg [false; false; false; false] INFINITY_SIGNATURE)
      (mkPayload zero32 [] zero32 zero32 [] zero32 0 0 0 0 [] 0 zero32 [] [] 0 0 [] []) [] [] []).
(** what happens next: a slot passes, or a block with votes arrives *)
Inductive pair_event : Set := Slot | Blk (votes : list N).
Definition pair_next (e : pair_event) (s : BeaconState) : bool * BeaconState :=
  match e with
  | Slot => let (r, t) := process_slots E f (slot s + 1) s in (match r with Ok _ => slot s + 1 <? 2 ^ 64 | _ => false end, t)
  | Blk votes => let (r, t) := process_block E f (pair_block votes s) s in (match r with Ok _ => true | _ => false end, t)
  end.
(** the states after the events, newest first, and whether all of them succeeded *)
Fixpoint pair_run (ok : bool) (l : list BeaconState) (es : list pair_event) : bool * list BeaconState :=
  match es, l with
  | e :: es, s :: _ => let (b, t) := pair_next e s in pair_run (ok && b) (t :: l) es
  | _, _ => (ok, l)
  end.
(** the last of them *)
Definition pair_after (s : BeaconState) (es : list pair_event) : BeaconState := hd s (snd (pair_run true [s] es)).
End Run.
(** one validator, who votes in the second slot of each epoch: three epochs' votes, each an epoch late, finalize epoch 1;
    the branches differ by the block at slot 1 *)
Notation pair_start := (pair_genesis pair_env 1 Phase0).
Definition pair_tail : list pair_event := [Slot; Slot; Slot; Blk [3]; Slot; Slot; Blk [5]; Slot; Slot; Blk [7]; Slot; Slot].
Definition pair_a : list BeaconState := snd (pair_run pair_env 1 Phase0 true [pair_start] (Slot :: Blk [] :: pair_tail)).
Definition pair_b : list BeaconState := snd (pair_run pair_env 1 Phase0 true [pair_start] (Slot :: pair_tail)).
(** an altair chain with a vote for epoch 1 *)
Definition pair_c : list BeaconState := snd (pair_run pair_env 1 Altair true [pair_genesis pair_env 1 Altair] [Slot; Slot; Slot; Slot; Blk [3]]).
