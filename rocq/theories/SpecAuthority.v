(** * Specification vocabulary: who may change the standing of a validator

    The standing of a validator is whether it is slashed, whether it has an exit epoch, and its withdrawal credentials.  What follows lists what a
    block must contain for it to change, in terms of the state before the block: messages signed with the keys recorded there. *)
From Verif Require Import Base Types Ctx Env Block Epoch Transition Upgrade SpecCommon SpecHelpers SpecElectra SpecOps SpecBlock SpecFlow SpecAtt SpecQueues SpecFinality SpecSafety.

Section Block.
Context (E : Env) (f : Fork) (s : BeaconState) (b : BeaconBlock).
Let body := bk_body b.

(** validator [i] signed two different headers for one slot *)
Definition caught_proposing (i : N) : Prop :=
  exists op v, In op (bb_proposer_slashings body) /\ nthN (validators s) i = Some v
    /\ let h1 := sbh_message (ps_1 op) in let h2 := sbh_message (ps_2 op) in
       bh_proposer_index h1 = i /\ bh_proposer_index h2 = i /\ bh_slot h1 = bh_slot h2 /\ h1 <> h2
       /\ signed_by E s [0; 0; 0; 0] (bh_slot h1 / SLOTS_PER_EPOCH E) (OHeader h1) (v_public_key v) (sbh_signature (ps_1 op))
       /\ signed_by E s [0; 0; 0; 0] (bh_slot h1 / SLOTS_PER_EPOCH E) (OHeader h2) (v_public_key v) (sbh_signature (ps_2 op)).
(** validator [i] is among the signers of two conflicting votes *)
Definition caught_voting (i : N) : Prop :=
  exists op, In op (bb_attester_slashings body) /\ In i (ia_attesting_indices (as_1 op)) /\ In i (ia_attesting_indices (as_2 op))
    /\ (double_vote (ia_data (as_1 op)) (ia_data (as_2 op)) \/ surrounds (ia_data (as_1 op)) (ia_data (as_2 op)))
    /\ indexed_valid E s (as_1 op) /\ indexed_valid E s (as_2 op).
Definition convicted (i : N) : Prop := caught_proposing i \/ caught_voting i.

(** the holder of the withdrawal key that the credentials of [v] commit to asks for payment to an address, which gives the credentials [c] *)
Definition moves_credentials (i : N) (v : Validator) (c : bytes) : Prop :=
  exists op, fork_le Capella f = true /\ In op (bb_bls_to_execution_changes body) /\ bc_validator_index (sbc_message op) = i
    /\ nthN (v_withdrawal_credentials v) 0 = Some 0
    /\ skipn 1 (v_withdrawal_credentials v) = skipn 1 (hash E (bc_from_bls_public_key (sbc_message op)))
    /\ (exists d root, is_domain E [10; 0; 0; 0] (GENESIS_FORK_VERSION E) (genesis_validators_root s) d
          /\ is_signing_root E (OBlsChange (sbc_message op)) d root /\ bls_verify E (bc_from_bls_public_key (sbc_message op)) root (sbc_signature op) = true)
    /\ c = address_credentials (bc_to_execution_address (sbc_message op)).
(** a deposit (through the contract or by receipt) signed with the key of [v] has compounding credentials *)
Definition asks_compounding (v : Validator) : Prop :=
  f = Electra /\ exists wc amount sig, nthN wc 0 = Some 2 /\ deposit_signed E (v_public_key v) wc amount sig
    /\ ((exists d, In d (bb_deposits body) /\ dd_public_key (dep_data d) = v_public_key v /\ dd_withdrawal_credentials (dep_data d) = wc
                   /\ dd_amount (dep_data d) = amount /\ dd_signature (dep_data d) = sig)
        \/ (exists r, In r (ep_deposit_receipts (bb_execution_payload body)) /\ dr_public_key r = v_public_key v /\ dr_withdrawal_credentials r = wc
                   /\ dr_amount r = amount /\ dr_signature r = sig)).
(** the credentials that validator [i] may have during or after the block: the old ones or those asked for, and in either case possibly made compounding,
    which keeps the address *)
Definition credentials_due (i : N) (v : Validator) (c : bytes) : Prop :=
  exists base, (base = v_withdrawal_credentials v \/ moves_credentials i v base)
    /\ (c = base \/ (asks_compounding v /\ nthN base 0 = Some 1 /\ c = 2 :: skipn 1 base)).

(** a voluntary exit signed with the key of [v] *)
Definition asks_exit (i : N) (v : Validator) : Prop :=
  exists op, In op (bb_voluntary_exits body) /\ ve_validator_index (sve_message op) = i
    /\ exists d root, is_domain E [4; 0; 0; 0] (exit_domain_version E f s (ve_epoch (sve_message op))) (genesis_validators_root s) d
         /\ is_signing_root E (OVoluntaryExit (sve_message op)) d root /\ bls_verify E (v_public_key v) root (sve_signature op) = true.
(** a request for a full exit from the address in the credentials *)
Definition address_asks_exit (i : N) (v : Validator) : Prop :=
  f = Electra /\ exists r c, In r (ep_withdrawal_requests (bb_execution_payload body)) /\ elw_validator_public_key r = v_public_key v /\ elw_amount r = 0
    /\ credentials_due i v c /\ (nthN c 0 = Some 1 \/ nthN c 0 = Some 2) /\ skipn 12 c = elw_source_address r.
(** a consolidation of validator [i] into another validator [j], signed with the keys of both *)
Definition asks_consolidation (i j : N) : Prop :=
  f = Electra /\ exists op v t, In op (bb_consolidations body) /\ cn_source_index (scn_message op) = i /\ cn_target_index (scn_message op) = j /\ i <> j
    /\ nthN (validators s) i = Some v /\ nthN (validators s) j = Some t
    /\ exists d root, is_domain E [11; 0; 0; 0] (GENESIS_FORK_VERSION E) (genesis_validators_root s) d
         /\ is_signing_root E (OConsolidation (scn_message op)) d root
         /\ fast_aggregate_verify_ok E [v_public_key v; v_public_key t] root (scn_signature op) = true.
Definition exit_due (i : N) (v : Validator) : Prop := convicted i \/ asks_exit i v \/ address_asks_exit i v \/ exists j, asks_consolidation i j.
End Block.

(** ** At the end of an epoch *)
(** the validator is active and its effective balance is down to the ejection balance *)
Definition ejected (E : Env) (s : BeaconState) (v : Validator) : Prop :=
  active_at (epoch_of E s) v = true /\ v_effective_balance v <= EJECTION_BALANCE E.
(** validator [i] is the target of a queued consolidation *)
Definition consolidation_target (f : Fork) (s : BeaconState) (i : N) : Prop :=
  f = Electra /\ exists c, In c (pending_consolidations s) /\ pc_target_index c = i.

(** ** On a chain *)
(** the walk goes from [p] directly to [q] *)
Definition passes (l : list (Fork * BeaconState)) (p q : Fork * BeaconState) : Prop := exists l1 l2, l = l1 ++ q :: p :: l2.
(** ... by processing block [b], with any outcome *)
Definition passes_block (E : Env) (l : list (Fork * BeaconState)) (f : Fork) (s : BeaconState) (b : BeaconBlock) : Prop :=
  exists r t, passes l (f, s) (f, t) /\ process_block E f b s = (r, t).
(** ... by ending an epoch *)
Definition passes_epoch (E : Env) (l : list (Fork * BeaconState)) (f : Fork) (s : BeaconState) : Prop :=
  exists t, passes l (f, s) (f, t) /\ process_slots E f (slot s + 1) s = (Ok tt, t) /\ (slot s + 1) mod SLOTS_PER_EPOCH E = 0.
