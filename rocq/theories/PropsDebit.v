(** * C115: nobody's balance is lowered without cause *)
From Verif Require Import Base BaseLemmas Types Ctx Env Helpers HelpersAltair HelpersElectra Block Epoch Transition Upgrade StLemmas
  SpecCommon SpecHelpers SpecElectra SpecOps SpecBlock SpecEpoch SpecFlow SpecAtt SpecQueues SpecFinality SpecSafety SpecAuthority SpecDebit
  HelperProofs HelperProofs2 FlowProofs DebitProofs Toy Toy2 Toy3 PropsOps PropsInvariants PropsBlock PropsFlow PropsAuthority.

(** one block: whatever the outcome of [process_block], a balance that is lower afterwards belongs to a validator that was paid out, that was convicted, that
    missed its sync committee duty, or that asked to be made compounding. Electra's queue of partial withdrawals is taken to be empty: see
    [C115_queued_withdrawals_refuted] *)
Theorem C115_block (E : Env) f b s r t i v x y : ctx_sane E -> slot s < 2 ^ 64 - 1 -> chk E = true -> (f = Electra -> pending_partial_withdrawals s = []) ->
  process_block E f b s = (r, t) -> nthN (validators s) i = Some v -> nthN (balances s) i = Some x -> nthN (balances t) i = Some y ->
  y < x -> debit_due E f s b i v.
Proof.
  intros Hc Hs Hk Hp H Hv Hx Hy Hlt. destruct (b_block E f s b Hc Hs Hk Hp) as [B _]. rewrite H in B. cbn [snd] in B. destruct (B i v x Hv Hx) as (z & A1 & [A2|A2]); [|exact A2].
  rewrite A1 in Hy. injection Hy as ->. lia.
Qed.
(** ... and no balance is dropped *)
Theorem C115_kept (E : Env) f b s r t i v x : ctx_sane E -> slot s < 2 ^ 64 - 1 -> chk E = true -> (f = Electra -> pending_partial_withdrawals s = []) ->
  process_block E f b s = (r, t) -> nthN (validators s) i = Some v -> nthN (balances s) i = Some x -> exists y, nthN (balances t) i = Some y.
Proof.
  intros Hc Hs Hk Hp H Hv Hx. destruct (b_block E f s b Hc Hs Hk Hp) as [B _]. rewrite H in B. cbn [snd] in B. destruct (B i v x Hv Hx) as (z & A1 & _). eauto.
Qed.
(** with a queued partial withdrawal of validator 2 and the sweep at validator 3, the block lowers the balance of validator 3 (C54), which none of these causes
    explains: it has no seat in the sync committee, nothing is due to it, and the block has no slashings and no deposits *)
Definition queued_toy : BeaconState := set_next_withdrawal_validator_index 3 (partial_toy [mkPPW 2 1000000000 3]).
Definition queued_block : BeaconBlock :=
  let s := queued_toy in let b := tiny_block s 1 in let body := bk_body b in
  let p := bb_execution_payload body in
  mkBlock (bk_slot b) (bk_proposer_index b) (bk_parent_root b) (bk_state_root b)
    (mkBody (bb_randao_reveal body) (bb_eth1_data body) (bb_graffiti body) [] [] [] [] [] (bb_sync_aggregate body)
       (mkPayload (ep_parent_hash p) (ep_fee_recipient p) (ep_state_root p) (ep_receipts_root p) (ep_logs_bloom p) (ep_prev_randao p) (ep_block_number p) (ep_gas_limit p) (ep_gas_used p)
          (ep_timestamp p) (ep_extra_data p) (ep_base_fee_per_gas p) (ep_block_hash p) (ep_transactions p) (match get_expected_withdrawals tiny Electra s with Ok e => fst e | _ => [] end)
          (ep_blob_gas_used p) (ep_excess_blob_gas p) [] []) [] [] []).
Theorem C115_queued_withdrawals_refuted : exists (E : Env) f b s t i v x y, ctx_sane E /\ slot s < 2 ^ 64 - 1 /\ chk E = true
  /\ process_block E f b s = (Ok tt, t) /\ nthN (validators s) i = Some v /\ nthN (balances s) i = Some x /\ nthN (balances t) i = Some y
  /\ y < x /\ ~ debit_due E f s b i v /\ (forall q, In q (pending_partial_withdrawals s) -> ppw_index q <> i).
Proof.
  exists tiny, Electra, queued_block, queued_toy, (snd (process_block tiny Electra queued_block queued_toy)), 3.
  exists (match nthN (validators queued_toy) 3 with Some v => v | None => toy_validator 0 end), 40000000000, 39000000000.
  split; [exact tiny_sane|]. split; [vm_compute; reflexivity|]. split; [reflexivity|]. split.
  { assert (H : fst (process_block tiny Electra queued_block queued_toy) = Ok tt) by (vm_compute; reflexivity). rewrite <- H. apply surjective_pairing. }
  split; [reflexivity|]. split; [reflexivity|]. split; [vm_compute; reflexivity|]. split; [reflexivity|]. split.
  - intros [(_ & w & Hin & Hi & Hd & _)|[[(op & _ & Hin & _)|(op & Hin & _)]|[(_ & k & H1 & _)|(_ & wc & amount & sg & _ & _ & [(d & Hin & _)|(d & Hin & _)])]]]; try contradiction Hin.
    + assert (N0 : due_at tiny Electra queued_toy 3 = None) by (vm_compute; reflexivity). rewrite N0 in Hd. discriminate Hd.
    + apply nthN_In in H1. assert (N0 : existsb (bytes_eqb (v_public_key (match nthN (validators queued_toy) 3 with Some v => v | None => toy_validator 0 end))) (sc_public_keys (current_sync_committee queued_toy)) = false) by (vm_compute; reflexivity).
      assert (N1 : existsb (bytes_eqb (v_public_key (match nthN (validators queued_toy) 3 with Some v => v | None => toy_validator 0 end))) (sc_public_keys (current_sync_committee queued_toy)) = true)
        by (apply existsb_exists; eexists; split; [exact H1|apply bytes_eqb_iff; reflexivity]). congruence.
  - intros q [<-|[]]. discriminate.
Qed.

(** in [owed_toy] validator 2 has a balance above the maximum; the block pays it out, convicts validator 3 and lacks the signatures of 0 and 1, of whom 1 proposes
    and is rewarded for the evidence *)
Definition owed_toy : BeaconState :=
  set_balances [32000000000; 32000000000; 33000000000; 32000000000]
    (set_validators (updN (validators slash_toy) 2 (set_v_withdrawal_credentials (1 :: repeat 9 31) (toy_validator 2))) slash_toy).
Definition owed_block : BeaconBlock :=
  let s := owed_toy in let b := tiny_block s 1 in let body := bk_body b in
  let p := bb_execution_payload body in
  mkBlock (bk_slot b) (bk_proposer_index b) (bk_parent_root b) (bk_state_root b)
    (mkBody (bb_randao_reveal body) (bb_eth1_data body) (bb_graffiti body) [toy_proposer_slashing 3] [] [] [] [] (bb_sync_aggregate body)
       (mkPayload (ep_parent_hash p) (ep_fee_recipient p) (ep_state_root p) (ep_receipts_root p) (ep_logs_bloom p) (ep_prev_randao p) (ep_block_number p) (ep_gas_limit p) (ep_gas_used p)
          (ep_timestamp p) (ep_extra_data p) (ep_base_fee_per_gas p) (ep_block_hash p) (ep_transactions p) (expected_withdrawals tiny Capella s)
          (ep_blob_gas_used p) (ep_excess_blob_gas p) [] []) [] [] []).
Example C115_example : ctx_sane tiny /\ slot owed_toy < 2 ^ 64 - 1 /\ chk tiny = true
  /\ fst (process_block tiny Capella owed_block owed_toy) = Ok tt
  /\ map w_amount (ep_withdrawals (bb_execution_payload (bk_body owed_block))) = [1000000000]
  /\ balances owed_toy = [32000000000; 32000000000; 33000000000; 32000000000]
  /\ balances (snd (process_block tiny Capella owed_block owed_toy)) = [31999910558; 32062410558; 32000000000; 31000000000].
Proof. split; [exact tiny_sane|]. vm_compute. repeat split. Qed.

Print Assumptions C115_block.
Print Assumptions C115_kept.
Print Assumptions C115_queued_withdrawals_refuted.
