(** * Specification vocabulary: justification and finalization

    Votes are described by committees and participation flags, the finality rules by the four textbook cases. *)
From Verif Require Import Base Types Ctx Env Transition Upgrade SpecCommon SpecElectra SpecAtt.
From Coq Require Import Relations.

(** at least two thirds of [total] *)
Definition supermajority (part total : N) : bool := 2 * total <=? 3 * part.

(** a recorded phase0 attestation names an existing committee and carries one bit per member *)
Definition pending_recorded (E : Env) (s : BeaconState) (a : PendingAttestation) : Prop :=
  ad_slot (pa_data a) < 2 ^ 56
  /\ ad_index (pa_data a) < committees_in_slot E s (ad_slot (pa_data a) / SLOTS_PER_EPOCH E)
  /\ exists com, is_committee E s (ad_slot (pa_data a)) (ad_index (pa_data a)) com /\ lenN (pa_aggregation_bits a) = lenN com.
(** the vote records of a state are well formed: what block processing leaves behind *)
Definition votes_recorded (E : Env) (f : Fork) (s : BeaconState) : Prop :=
  match f with
  | Phase0 => forall a, In a (previous_epoch_attestations s ++ current_epoch_attestations s) -> pending_recorded E s a
  | _ => lenN (previous_epoch_participation s) = lenN (validators s) /\ lenN (current_epoch_participation s) = lenN (validators s)
  end.

(** validator [i] is not slashed and voted for the block that starts epoch [e] *)
Definition voted_target (E : Env) (f : Fork) (s : BeaconState) (e i : N) : Prop :=
  exists v, nthN (validators s) i = Some v /\ v_slashed v = false
  /\ match f with
     | Phase0 => exists a com k, In a (if e =? epoch_of E s then current_epoch_attestations s else previous_epoch_attestations s)
         /\ recorded_root E s (e * SLOTS_PER_EPOCH E) = Some (cp_root (ad_target (pa_data a)))
         /\ is_committee E s (ad_slot (pa_data a)) (ad_index (pa_data a)) com
         /\ nthN (pa_aggregation_bits a) k = Some true /\ nthN com k = Some i
     | _ => active_at e v = true
         /\ exists p, nthN (if e =? epoch_of E s then current_epoch_participation s else previous_epoch_participation s) i = Some p
                      /\ N.testbit p 1 = true
     end.
(** [w] is the stake that voted for the target of epoch [e], at least one increment *)
Definition target_weight (E : Env) (f : Fork) (s : BeaconState) (e w : N) : Prop :=
  exists l, NoDup l /\ (forall i, In i l <-> voted_target E f s e i) /\ w = N.max (effective_sum s l) (EFFECTIVE_BALANCE_INCREMENT E).

(** the effective balances of the whole registry sum to less than 2^62 Gwei (4.6 billion ETH) *)
Definition stake_fits (s : BeaconState) : Prop := sumN (map v_effective_balance (validators s)) < 2 ^ 62.
(** justified epochs of a state are epochs, not arbitrary numbers near 2^64 *)
Definition justified_small (s : BeaconState) : Prop :=
  cp_epoch (previous_justified_checkpoint s) < 2 ^ 63 /\ cp_epoch (current_justified_checkpoint s) < 2 ^ 63.

(** the checkpoint of epoch [e]: the block recorded at its first slot *)
Definition checkpoint_of (E : Env) (s : BeaconState) (e : N) : Checkpoint :=
  mkCheckpoint e (match recorded_root E s (e * SLOTS_PER_EPOCH E) with Some r => r | None => zero32 end).

(** [sp], [sc]: the targets of the previous and of the current epoch have a supermajority *)
Definition bits_after (bits : list bool) (sp sc : bool) : list bool :=
  match bits with
  | [b0; b1; b2; b3] => [sc; sp || b0; b1; b2]
  | _ => bits
  end.
Definition justified_after (E : Env) (s : BeaconState) (sp sc : bool) : Checkpoint :=
  if sc then checkpoint_of E s (epoch_of E s)
  else if sp then checkpoint_of E s (prev_epoch_of E s)
  else current_justified_checkpoint s.
(** [b k]: the epoch [k] before the current one is justified (after the update); the most recent finality wins *)
Definition finalized_after (E : Env) (s : BeaconState) (b : list bool) : Checkpoint :=
  let j := fun k => nth k b false in
  let now := epoch_of E s in
  let old_prev := previous_justified_checkpoint s in
  let old_cur := current_justified_checkpoint s in
  if j 0%nat && j 1%nat && (cp_epoch old_cur + 1 =? now) then old_cur
  else if j 0%nat && j 1%nat && j 2%nat && (cp_epoch old_cur + 2 =? now) then old_cur
  else if j 1%nat && j 2%nat && (cp_epoch old_prev + 2 =? now) then old_prev
  else if j 1%nat && j 2%nat && j 3%nat && (cp_epoch old_prev + 3 =? now) then old_prev
  else finalized_checkpoint s.
Definition finality_after (E : Env) (s : BeaconState) (sp sc : bool) : BeaconState :=
  let b := bits_after (justification_bits s) sp sc in
  set_finalized_checkpoint (finalized_after E s b)
    (set_current_justified_checkpoint (justified_after E s sp sc)
      (set_previous_justified_checkpoint (current_justified_checkpoint s)
        (set_justification_bits b s))).

(** the order every reachable state maintains *)
Definition finality_ordered (E : Env) (s : BeaconState) : Prop :=
  cp_epoch (finalized_checkpoint s) <= cp_epoch (previous_justified_checkpoint s)
  /\ cp_epoch (previous_justified_checkpoint s) <= cp_epoch (current_justified_checkpoint s)
  /\ cp_epoch (current_justified_checkpoint s) <= prev_epoch_of E s.

(** ** Chains: slot processing that succeeds, blocks with any outcome, fork upgrades *)
Section Chain.
Variable E : Env.
Inductive chain_call : Fork * BeaconState -> Fork * BeaconState -> Prop :=
| chain_transition f validate sb s s' : bk_slot (sb_message sb) < 2 ^ 64 ->
    state_transition E f validate sb s = (Ok tt, s') -> chain_call (f, s) (f, s')
| chain_slots f target s s' : target < 2 ^ 64 -> process_slots E f target s = (Ok tt, s') -> chain_call (f, s) (f, s')
| chain_block f b s r s' : process_block E f b s = (r, s') -> chain_call (f, s) (f, s')
| chain_altair s s' : upgrade_to_altair E s = Ok s' -> chain_call (Phase0, s) (Altair, s')
| chain_bellatrix s s' : upgrade_to_bellatrix E s = Ok s' -> chain_call (Altair, s) (Bellatrix, s')
| chain_capella s s' : upgrade_to_capella E s = Ok s' -> chain_call (Bellatrix, s) (Capella, s')
| chain_deneb s s' : upgrade_to_deneb E s = Ok s' -> chain_call (Capella, s) (Deneb, s')
| chain_electra s s' : upgrade_to_electra E s = Ok s' -> chain_call (Deneb, s) (Electra, s').
Definition chain : Fork * BeaconState -> Fork * BeaconState -> Prop := clos_refl_trans _ chain_call.
End Chain.
