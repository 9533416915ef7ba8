(** * No validator with funds due waits long for its withdrawal *)
From Verif Require Import Base BaseLemmas Types Ctx Env Helpers HelpersAltair HelpersElectra Block Epoch Transition Upgrade StLemmas
  SpecCommon SpecEpoch SpecHelpers SpecElectra SpecOps SpecFlow SpecFinality SpecPayouts SpecWait HelperProofs HelperProofs2 FlowProofs PayoutProofs WaitProofs
  Presets Toy Toy2 Toy3 PropsOps PropsInvariants PropsBlock PropsFlow PropsPayouts.

(** In capella and deneb, while a validator has funds due, fewer than (registry size / stride) accepted blocks can pass it over, whatever happens in between:
    empty slots, deposits that grow the registry up to the bound, an upgrade. *)
Theorem C123_wait (E : Env) i M p0 z w c : ctx_sane E -> withdrawal_limits E -> waiting E i p0 (z :: w) c ->
  (forall g s, In (g, s) (z :: w) -> (g = Capella \/ g = Deneb) /\ sweep_ready s /\ lenN (validators s) <= M) ->
  c * sweep_stride E < M.
Proof.
  intros Hc Hl H Ha. destruct (wait_runs E i M p0 z w c Hc Hl H Ha) as [A B].
  assert (P : exists g s, In (g, s) (z :: w) /\ s = snd p0).
  { clear - H. induction H as [|f s t w' c H IH _ _|f b s t w' c H IH _ _ _|f g s t w' c H IH _ _];
      [exists (fst p0), (snd p0); split; [left; destruct p0; reflexivity|reflexivity]|..]; destruct IH as (g' & u & I & J); exists g', u; (split; [right; exact I|exact J]). }
  destruct P as (g & s & I & ->). destruct (Ha _ _ I) as (_ & (_ & _ & R & _) & N).
  destruct A as [->|A]; [rewrite N.mul_0_l; clear - R N; lia|]. unfold ahead in B at 2.
  destruct (next_withdrawal_validator_index (snd p0) <=? i) eqn:L; apply N.leb_le in L || apply N.leb_gt in L; revert B R N A L; generalize (ahead M (next_withdrawal_validator_index (snd z)) i) (c * sweep_stride E);
    clear; intros; lia.
Qed.
(** On every built-in network a block passes at least four validators, sixteen on those with mainnet's preset. *)
Theorem C123_networks : sweep_stride ctx_mainnet = 16 /\ sweep_stride ctx_goerli = 16 /\ sweep_stride ctx_sepolia = 16 /\ sweep_stride ctx_holesky = 16
  /\ sweep_stride ctx_hoodi = 16 /\ sweep_stride ctx_minimal = 4.
Proof. repeat split; vm_compute; reflexivity. Qed.

(** five validators have balances above the maximum, and a payload holds four withdrawals *)
Definition queue_toy : BeaconState :=
  set_next_withdrawal_index 7 (set_balances (repeat 32500000000 5)
    (set_validators (map (fun i => set_v_withdrawal_credentials (1 :: repeat 9 31) (toy_validator i)) [0; 1; 2; 3; 4]) (tiny_state 5 13))).
Definition queue_block : BeaconBlock :=
  let s := queue_toy in let b := tiny_block s 0 in let body := bk_body b in
  let p := bb_execution_payload body in
  mkBlock (bk_slot b) (bk_proposer_index b) (bk_parent_root b) (bk_state_root b)
    (mkBody (bb_randao_reveal body) (bb_eth1_data body) (bb_graffiti body) [] [] [] [] [] (bb_sync_aggregate body)
       (mkPayload (ep_parent_hash p) (ep_fee_recipient p) (ep_state_root p) (ep_receipts_root p) (ep_logs_bloom p) (ep_prev_randao p) (ep_block_number p) (ep_gas_limit p) (ep_gas_used p)
          (ep_timestamp p) (ep_extra_data p) (ep_base_fee_per_gas p) (ep_block_hash p) (ep_transactions p) (expected_withdrawals tiny Capella s)
          (ep_blob_gas_used p) (ep_excess_blob_gas p) [] []) [] [] []).
Definition queue_after (f : Fork) : BeaconState := snd (process_block tiny f queue_block queue_toy).
(** the block pays validators 0 to 3, and validator 4 waits one block: 1 * 4 < 5 *)
Example C123_example : let f := Deneb in ctx_sane tiny /\ withdrawal_limits tiny /\ sweep_stride tiny = 4
  /\ waiting tiny 4 (f, queue_toy) [(f, queue_after f); (f, queue_toy)] 1
  /\ (forall g s, In (g, s) [(f, queue_after f); (f, queue_toy)] -> (g = Capella \/ g = Deneb) /\ sweep_ready s /\ lenN (validators s) <= 5)
  /\ next_withdrawal_validator_index (queue_after f) = 4.
Proof.
  intros f. split; [exact tiny_sane|]. split; [apply limits_networks|]. split; [reflexivity|].
  assert (B : (let (r, t) := process_block tiny f queue_block queue_toy in
      (r, next_withdrawal_validator_index t, lenN (balances t), lenN (validators t), next_withdrawal_index t)) = (Ok tt, 4, 5, 5, 11)) by (vm_compute; reflexivity).
  unfold queue_after. destruct (process_block tiny f queue_block queue_toy) as [r t] eqn:P. cbn [snd]. injection B as -> I1 I2 I3 I4.
  split; [apply (waiting_block tiny 4 (f, queue_toy) f queue_block queue_toy t [] 0); [apply waiting_start|vm_compute; discriminate|exact P|]|].
  { assert (Hm : map w_validator_index (payouts f queue_block) = [0; 1; 2; 3]) by (vm_compute; reflexivity). rewrite Hm. intros [X|[X|[X|[X|[]]]]]; discriminate. }
  split; [|exact I1]. intros g s [Hs|[Hs|[]]].
  - apply (f_equal snd) in Hs as Ht. apply (f_equal fst) in Hs as Hg. unfold fst, snd in Ht, Hg. rewrite <- Hg, <- Ht. split; [right; reflexivity|].
    unfold sweep_ready. rewrite I1, I2, I3, I4. repeat split; vm_compute; congruence.
  - apply (f_equal snd) in Hs as Ht. apply (f_equal fst) in Hs as Hg. unfold fst, snd in Ht, Hg. rewrite <- Hg, <- Ht. split; [right; reflexivity|].
    split; [repeat split; vm_compute; congruence|vm_compute; congruence].
Qed.

Print Assumptions C123_wait.
Print Assumptions C123_networks.
