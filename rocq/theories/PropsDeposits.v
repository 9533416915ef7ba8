(** * Property theorems: a block processes exactly the next deposits (C83)

    C27 describes one deposit.  Here: which deposits a block has to contain.  [D] is the deposit count the state records after the
    block's own eth1 vote, [i] the number of deposits processed before the block. *)
From Verif Require Import Base BaseLemmas Types Ctx Env Helpers Block StLemmas SpecCommon SpecFlow DepositProofs PropsFlow PropsCrash Toy ToyCtx Toy2 Toy3.

(** an accepted block contains exactly the outstanding deposits, as many as the limit allows; none is skipped *)
Theorem C83_all_outstanding : forall (E : Env) (f : Fork) (b : BeaconBlock) (s s' : BeaconState),
  f <> Electra -> process_block E f b s = (Ok tt, s') ->
  let D := e1_deposit_count (eth1_data s') in let i := eth1_deposit_index s in
  i <= D -> D < 2 ^ 64 -> i + lenN (bb_deposits (bk_body b)) < 2 ^ 64 ->
  lenN (bb_deposits (bk_body b)) = N.min (MAX_DEPOSITS E) (D - i) /\ eth1_deposit_index s' = i + N.min (MAX_DEPOSITS E) (D - i)
  /\ eth1_deposit_index s' <= D.
Proof.
  intros E f b s s' Hf H D i Hle HD Hi. destruct (block_deposits E f b s s' Hi H) as ((t & T1 & T2 & T3 & _) & Hx & _).
  assert (Hc : deposit_count_check E f (bk_body b) t = (let! d := sub E D i in require (lenN (bb_deposits (bk_body b)) =? N.min (MAX_DEPOSITS E) d) EDepIncorrectCount)).
  { unfold deposit_count_check, D, i. rewrite T1, T2. destruct f; try reflexivity. contradiction. }
  rewrite Hc in T3. unfold sub in T3. rewrite usub_ok in T3 by exact Hle. cbn [rbind] in T3. apply require_ok, N.eqb_eq in T3. rewrite Hx, T3. fold i. lia.
Qed.
(** the k-th deposit of an accepted block is proven to be leaf [i + k] of the recorded deposit tree, in every fork *)
Theorem C83_consecutive_leaves : forall (E : Env) (f : Fork) (b : BeaconBlock) (s s' : BeaconState) (k : N) (d : Deposit),
  process_block E f b s = (Ok tt, s') -> eth1_deposit_index s + lenN (bb_deposits (bk_body b)) < 2 ^ 64 ->
  nthN (bb_deposits (bk_body b)) k = Some d ->
  exists leaf, htr E (ODepositData (dep_data d)) = Some leaf
    /\ merkle_branch_ok E leaf (dep_proof d) 33 (eth1_deposit_index s + k) (e1_deposit_root (eth1_data s')) = true.
Proof. intros E f b s s' k d H Hi Hd. destruct (block_deposits E f b s s' Hi H) as (_ & _ & Hp). apply Hp. exact Hd. Qed.
Theorem C83_index_advances : forall (E : Env) (f : Fork) (b : BeaconBlock) (s s' : BeaconState),
  process_block E f b s = (Ok tt, s') -> eth1_deposit_index s + lenN (bb_deposits (bk_body b)) < 2 ^ 64 ->
  eth1_deposit_index s' = eth1_deposit_index s + lenN (bb_deposits (bk_body b)).
Proof. intros E f b s s' H Hi. destruct (block_deposits E f b s s' Hi H) as (_ & Hx & _). exact Hx. Qed.
(** a body with any other number of deposits is rejected before any operation takes effect *)
Theorem C83_wrong_count_rejected : forall (E : Env) (f : Fork) (b : BeaconBlockBody) (s : BeaconState),
  f <> Electra -> eth1_deposit_index s <= e1_deposit_count (eth1_data s) ->
  lenN (bb_deposits b) <> N.min (MAX_DEPOSITS E) (e1_deposit_count (eth1_data s) - eth1_deposit_index s) ->
  process_operations E f b s = (Err EDepIncorrectCount, s).
Proof.
  intros E f b s Hf Hle Hne. unfold process_operations.
  assert (H : deposit_count_check E f b s = Err EDepIncorrectCount); [|unfold sbind, rd; rewrite H; reflexivity].
  apply N.eqb_neq in Hne. unfold deposit_count_check, sub. rewrite usub_ok by exact Hle. cbn [rbind]. rewrite Hne. destruct f; try reflexivity. contradiction.
Qed.

(** two deposits outstanding: the block with both is accepted, the blocks with one or none are not *)
Definition deposit_toy : BeaconState := set_eth1_deposit_index 2 crash_toy.
Definition deposit_block (ds : list Deposit) : BeaconBlock :=
  let b := tiny_block deposit_toy 1 in let body := bk_body b in
  mkBlock (bk_slot b) (bk_proposer_index b) (bk_parent_root b) (bk_state_root b)
    (mkBody (bb_randao_reveal body) (bb_eth1_data body) (bb_graffiti body) [] [] [] ds [] (bb_sync_aggregate body) (bb_execution_payload body) [] [] []).
Definition two_deposits : list Deposit := [toy_deposit 1 5 true []; toy_deposit 2 7 true []].
Example C83_example : forall f, f <> Electra ->
  let r := process_block tiny f (deposit_block two_deposits) deposit_toy in
  fst r = Ok tt /\ eth1_deposit_index deposit_toy <= e1_deposit_count (eth1_data (snd r)) /\ eth1_deposit_index (snd r) = 4
  /\ MAX_DEPOSITS tiny <> 1
  /\ fst (process_block tiny f (deposit_block [toy_deposit 1 5 true []]) deposit_toy) = Err EDepIncorrectCount
  /\ fst (process_block tiny f (deposit_block []) deposit_toy) = Err EDepIncorrectCount.
Proof. intros f Hf. destruct f; try contradiction; repeat split; vm_compute; congruence. Qed.

Print Assumptions C83_all_outstanding.
Print Assumptions C83_consecutive_leaves.
Print Assumptions C83_index_advances.
Print Assumptions C83_wrong_count_rejected.
