(** * The withdrawals of a chain are numbered without gaps and pay what is due *)
From Verif Require Import Base BaseLemmas Types Ctx Env Helpers HelpersAltair HelpersElectra Block Epoch Transition Upgrade StLemmas
  SpecCommon SpecEpoch SpecHelpers SpecElectra SpecOps SpecFlow SpecFinality SpecPayouts HelperProofs HelperProofs2 FlowProofs PayoutProofs Toy Toy2 Toy3 PropsOps PropsInvariants PropsBlock PropsFlow.

(** The withdrawals of the accepted blocks of a chain carry consecutive numbers, from capella on, in every fork and across upgrades; the next number is on
    record. *)
Theorem C122_numbering (E : Env) p0 z w l : ctx_sane E -> chk E = true -> served E p0 (z :: w) l ->
  (forall k x, nthN l k = Some x -> w_index x = first_number p0 + k)
  /\ (fork_le Capella (fst z) = true -> next_withdrawal_index (snd z) = first_number p0 + lenN l).
Proof. intros Hc Hk H. destruct (served_runs E p0 z w l Hc Hk H) as (A & _ & C & _). split; [exact C|exact A]. Qed.
(** so no number is used twice *)
Theorem C122_no_number_twice (E : Env) p0 z w l : ctx_sane E -> chk E = true -> served E p0 (z :: w) l -> NoDup (map w_index l).
Proof.
  intros Hc Hk H. destruct (C122_numbering E p0 z w l Hc Hk H) as [A _]. apply NoDup_nth_error. intros i j Hi He.
  rewrite map_length in Hi. rewrite !nth_error_map in He. destruct (nth_error l i) as [x|] eqn:Hx; [|apply nth_error_None in Hx; lia].
  destruct (nth_error l j) as [y|] eqn:Hy; [|discriminate]. injection He as He.
  assert (Gx : nthN l (N.of_nat i) = Some x) by (rewrite nthN_nth_error, Nnat.Nat2N.id; exact Hx). assert (Gy : nthN l (N.of_nat j) = Some y) by (rewrite nthN_nth_error, Nnat.Nat2N.id; exact Hy).
  apply A in Gx. apply A in Gy. lia.
Qed.
(** Before electra, every withdrawal of the chain was due: in the state its block was applied to, the validator had the amount, could take it out, and its
    credentials name the address paid. *)
Theorem C122_due (E : Env) p0 z w l : ctx_sane E -> chk E = true -> served E p0 (z :: w) l -> (forall g s, In (g, s) (z :: w) -> g <> Electra) ->
  forall x, In x l -> exists g s v b, In (g, s) (z :: w) /\ fork_le Capella g = true
    /\ nthN (validators s) (w_validator_index x) = Some v /\ nthN (balances s) (w_validator_index x) = Some b
    /\ kind_is 1 v = true /\ w_address x = skipn 12 (v_withdrawal_credentials v) /\ 0 < w_amount x
    /\ ((v_withdrawable_epoch v <= epoch_of E s /\ w_amount x = b)
        \/ (v_effective_balance v = MAX_EFFECTIVE_BALANCE E /\ w_amount x + MAX_EFFECTIVE_BALANCE E = b)).
Proof.
  intros Hc Hk H Hn x Hx. destruct (served_runs E p0 z w l Hc Hk H) as (_ & _ & _ & D). destruct (D x Hx) as (g & s & I & Hg & J).
  specialize (Hn g s I). destruct (J Hn) as (v & b & J1 & J2 & J3 & J4). exists g, s, v, b.
  split; [exact I|]. split; [exact Hg|]. split; [exact J1|]. split; [exact J2|]. apply (C42_due E g s v b) in J3 as [K L].
  assert (Cap : balance_cap E g v = MAX_EFFECTIVE_BALANCE E) by (destruct g; try reflexivity; contradiction). rewrite Cap in L.
  split; [destruct K as [K|[K _]]; [exact K|contradiction]|]. split; [exact J4|]. split; [destruct L as [(_ & L1 & ->)|(_ & _ & L1 & ->)]; [exact L1|clear - L1; lia]|].
  destruct L as [(L0 & L1 & ->)|(_ & L2 & L1 & ->)]; [left; auto|right]. split; [exact L2|clear - L1; lia].
Qed.

(** two validators have balances above the maximum; seven withdrawals have been made before *)
Definition payout_toy : BeaconState :=
  set_next_withdrawal_index 7 (set_balances [32500000000; 32000000000; 33000000000; 32000000000]
    (set_validators (map (fun i => set_v_withdrawal_credentials (1 :: repeat 9 31) (toy_validator i)) [0; 1; 2; 3]) slash_toy)).
Definition payout_block : BeaconBlock :=
  let s := payout_toy in let b := tiny_block s 1 in let body := bk_body b in
  let p := bb_execution_payload body in
  mkBlock (bk_slot b) (bk_proposer_index b) (bk_parent_root b) (bk_state_root b)
    (mkBody (bb_randao_reveal body) (bb_eth1_data body) (bb_graffiti body) [] [] [] [] [] (bb_sync_aggregate body)
       (mkPayload (ep_parent_hash p) (ep_fee_recipient p) (ep_state_root p) (ep_receipts_root p) (ep_logs_bloom p) (ep_prev_randao p) (ep_block_number p) (ep_gas_limit p) (ep_gas_used p)
          (ep_timestamp p) (ep_extra_data p) (ep_base_fee_per_gas p) (ep_block_hash p) (ep_transactions p) (expected_withdrawals tiny Capella s)
          (ep_blob_gas_used p) (ep_excess_blob_gas p) [] []) [] [] []).
Definition payout_after (f : Fork) : BeaconState := snd (process_block tiny f payout_block payout_toy).
Example C122_example : let f := Deneb in ctx_sane tiny /\ chk tiny = true
  /\ served tiny (f, payout_toy) [(f, payout_after f); (f, payout_toy)] (payouts f payout_block)
  /\ map (fun x => (w_index x, w_validator_index x, w_amount x)) (payouts f payout_block) = [(7, 0, 500000000); (8, 2, 1000000000)]
  /\ next_withdrawal_index (payout_after f) = 9.
Proof.
  intros f. split; [exact tiny_sane|]. split; [reflexivity|].
  assert (B : (let (r, t) := process_block tiny f payout_block payout_toy in (r, next_withdrawal_index t)) = (Ok tt, 9)) by (vm_compute; reflexivity).
  unfold payout_after. destruct (process_block tiny f payout_block payout_toy) as [r t] eqn:P. cbn [snd]. injection B as -> I.
  split; [apply (served_block tiny (f, payout_toy) f payout_block payout_toy t [] []); [apply served_start|exact P]|]. split; [vm_compute; reflexivity|exact I].
Qed.

Print Assumptions C122_numbering.
Print Assumptions C122_no_number_twice.
Print Assumptions C122_due.
