(** * The chain credits the deposit contract's log, in order *)
From Verif Require Import Base BaseLemmas Types Ctx Env Helpers HelpersAltair HelpersElectra Block Epoch Transition Upgrade StLemmas
  SpecCommon SpecFlow SpecFinality SpecTrees SpecDepositLog HelperProofs HelperProofs2 Toy Toy2 Toy3 ToyCtx PropsFlow Trees PropsTrees PropsCrash PropsDeposits BlobProofs DepositLogProofs.

(** the counter is the number of deposits credited since the start of the chain, on top of where it started *)
Theorem C121_counter (E : Env) p0 z w l : ctx_sane E -> paid E p0 (z :: w) l -> eth1_deposit_index (snd p0) + lenN l < 2 ^ 64 ->
  eth1_deposit_index (snd z) = eth1_deposit_index (snd p0) + lenN l.
Proof. intros Hc H Hi. exact (proj1 (paid_runs E p0 z w l Hc H Hi)). Qed.

(** While the deposit-contract data on record are those of one contract, the deposits credited along the chain are the next entries of its log: none
    skipped, none repeated, none out of order, none made up. *)
Theorem C121_contract_order (E : Env) (log : list DepositData) p0 z w l : ctx_sane E -> (forall b, lenN (hash E b) = 32) -> branch_check E ->
  (forall d r, htr E (ODepositData d) = Some r -> lenN r = 32) ->
  paid E p0 (z :: w) l -> eth1_deposit_index (snd p0) + lenN l <= 2 ^ 32 -> (forall f t, In (f, t) (z :: w) -> snapshot E log (eth1_data t)) ->
  map (deposit_root E) l = map (fun d => htr E (ODepositData d)) (firstN (lenN l) (skipN (eth1_deposit_index (snd p0)) log)) \/ hash_broken E.
Proof.
  intros Hc Hw Hm H32 H Hi Hs. destruct (paid_runs E p0 z w l Hc H ltac:(pows; lia)) as [_ R]. set (i0 := eth1_deposit_index (snd p0)) in *.
  destruct (all_or (fun k => option_map (deposit_root E) (nthN l k) = option_map (fun x => htr E (ODepositData x)) (nthN log (i0 + k))) (hash_broken E) (lenN l)) as [G|G]; [|left|right; exact G].
  - intros k Hk. destruct (nthN_lt l k Hk) as [d Hd]. destruct (R k d Hd) as (f & t & leaf & I & D & M). rewrite Hd. cbn [option_map]. rewrite D.
    destruct (proven_leaf E log (eth1_data t) (i0 + k) (dep_data d) (dep_proof d) leaf Hw Hm H32 (Hs f t I) ltac:(lia) D M) as [P|P]; [left; symmetry; exact P|right; exact P].
  - apply nthN_ext. intros k. rewrite !nthN_map, nthN_firstN, nthN_skipN. destruct (N.ltb_spec k (lenN l)) as [Hk|Hk]; [exact (G k Hk)|].
    rewrite (proj2 (nthN_none l k) Hk). reflexivity.
Qed.
(** Two chains that start with the same number of deposits and follow the same contract credit the same deposits: one sequence is an initial part of the
    other. *)
Theorem C121_chains_agree (E : Env) (log : list DepositData) p0 z w l p0' z' w' l' : ctx_sane E -> (forall b, lenN (hash E b) = 32) -> branch_check E ->
  (forall d r, htr E (ODepositData d) = Some r -> lenN r = 32) ->
  paid E p0 (z :: w) l -> paid E p0' (z' :: w') l' -> eth1_deposit_index (snd p0') = eth1_deposit_index (snd p0) -> lenN l <= lenN l' ->
  eth1_deposit_index (snd p0) + lenN l' <= 2 ^ 32 ->
  (forall f t, In (f, t) (z :: w) -> snapshot E log (eth1_data t)) -> (forall f t, In (f, t) (z' :: w') -> snapshot E log (eth1_data t)) ->
  map (deposit_root E) l = firstN (lenN l) (map (deposit_root E) l') \/ hash_broken E.
Proof.
  intros Hc Hw Hm H32 H H' He Hl Hi Hs Hs'.
  destruct (C121_contract_order E log p0 z w l Hc Hw Hm H32 H ltac:(lia) Hs) as [A|A]; [|right; exact A].
  destruct (C121_contract_order E log p0' z' w' l' Hc Hw Hm H32 H' ltac:(lia) Hs') as [B|B]; [|right; exact B].
  left. rewrite A, B, He. apply nthN_ext. intros k. rewrite nthN_firstN, !nthN_map, !nthN_firstN. destruct (N.ltb_spec k (lenN l)) as [Hk|Hk]; [|reflexivity].
  replace (k <? lenN l') with true by (symmetry; apply N.ltb_lt; lia). reflexivity.
Qed.

(** ** A log of four deposits, the first two credited already; a block credits the other two *)
Lemma balanced_grow d l : (length l <= Nat.pow 2 d)%nat -> balanced (S d) l = Node (balanced d l) (balanced d []).
Proof. intros H. cbn [balanced]. rewrite firstn_all2, skipn_all2 by exact H. reflexivity. Qed.
Fixpoint climb (H : bytes -> bytes) (k : nat) (z r : bytes) : bytes := match k with O => r | S k' => climb H k' (H (z ++ z)) (H (r ++ z)) end.
Lemma root_climb H l : forall k d, (length l <= Nat.pow 2 d)%nat -> root_of H (balanced (k + d) l) = climb H k (root_of H (balanced d [])) (root_of H (balanced d l)).
Proof.
  induction k as [|k IH]; intros d Hd; [reflexivity|]. cbn [climb]. replace (S k + d)%nat with (k + S d)%nat by lia. rewrite IH by (rewrite Nat.pow_succ_r'; lia).
  rewrite (balanced_grow d l Hd), (balanced_grow d []) by (cbn; lia). reflexivity.
Qed.
Lemma root_climb_at H l n k d : n = (k + d)%nat -> (length l <= Nat.pow 2 d)%nat -> root_of H (balanced n l) = climb H k (root_of H (balanced d [])) (root_of H (balanced d l)).
Proof. intros ->. apply root_climb. Qed.
Lemma node_root H d l x : root_of H (Node (balanced d l) (Leaf x)) = H (root_of H (balanced d l) ++ x). Proof. reflexivity. Qed.
Lemma contract_root H l : (length l <= 4)%nat ->
  root_of H (list_tree (2 ^ 32) l) = H (climb H 30 (root_of H (balanced 2 [])) (root_of H (balanced 2 l)) ++ to_le 32 (lenN l)).
Proof. intros Hl. rewrite list_tree_32, node_root, (root_climb_at H l 32 30 2 eq_refl Hl). reflexivity. Qed.
Definition log_toy : list DepositData := map (fun p => dep_data (toy_deposit (fst p) (snd p) true [])) [(0, 3); (1, 4); (1, 5); (2, 7)].
Definition log_leaves : list bytes := Eval vm_compute in map (fun d => match toy_htr (ODepositData d) with Some r => r | None => [] end) log_toy.
Definition log_root : bytes := Eval vm_compute in toy_hash (climb toy_hash 30 (root_of toy_hash (balanced 2 [])) (root_of toy_hash (balanced 2 (map Leaf log_leaves))) ++ to_le 32 4).
Fixpoint zero_tops (H : bytes -> bytes) (k : nat) (z : bytes) : list bytes := match k with O => [] | S k' => z :: zero_tops H k' (H (z ++ z)) end.
(** leaf 2 and leaf 3 differ in their first sibling *)
Definition log_rest : list bytes := Eval vm_compute in toy_hash (nth 0 log_leaves [] ++ nth 1 log_leaves []) :: zero_tops toy_hash 30 (root_of toy_hash (balanced 2 [])) ++ [to_le 32 4].
Definition log_branch (sibling : nat) : list bytes := nth sibling log_leaves [] :: log_rest.
Definition log_deposits : list Deposit := [toy_deposit 1 5 true (log_branch 3%nat); toy_deposit 2 7 true (log_branch 2%nat)].
Definition log_state : BeaconState := set_eth1_data (mkEth1 log_root 4 zero32) deposit_toy.
Definition log_after (f : Fork) : BeaconState := snd (process_block fold_env f (deposit_block log_deposits) log_state).
Lemma log_snapshot : snapshot fold_env log_toy (mkEth1 log_root 4 zero32).
Proof.
  exists log_leaves. split; [reflexivity|]. split; [vm_compute; reflexivity|]. rewrite contract_root by (cbn; lia). vm_compute. reflexivity.
Qed.
Example C121_example : let f := Deneb in
  ctx_sane fold_env /\ (forall b, lenN (hash fold_env b) = 32) /\ branch_check fold_env /\ (forall d r, htr fold_env (ODepositData d) = Some r -> lenN r = 32)
  /\ paid fold_env (f, log_state) [(f, log_after f); (f, log_state)] log_deposits
  /\ (forall g t, In (g, t) [(f, log_after f); (f, log_state)] -> snapshot fold_env log_toy (eth1_data t))
  /\ eth1_deposit_index log_state = 2 /\ eth1_deposit_index (log_after f) = 4
  /\ map (fun d => htr fold_env (ODepositData d)) (firstN 2 (skipN 2 log_toy)) = map (deposit_root fold_env) log_deposits.
Proof.
  intros f. split; [exact tiny_sane|]. split; [exact (proj1 C71_toy)|]. split; [exact (proj1 (proj2 C71_sidecar_toy))|].
  split; [intros d r [= <-]; reflexivity|].
  assert (B : (let (r, t) := process_block fold_env f (deposit_block log_deposits) log_state in (r, eth1_data t, eth1_deposit_index t)) = (Ok tt, mkEth1 log_root 4 zero32, 4))
    by (vm_compute; reflexivity).
  unfold log_after. destruct (process_block fold_env f (deposit_block log_deposits) log_state) as [r t] eqn:P. cbn [snd]. injection B as -> D I.
  assert (D0 : eth1_data log_state = mkEth1 log_root 4 zero32) by reflexivity.
  split; [apply (paid_block fold_env (f, log_state) f (deposit_block log_deposits) log_state t [] []); [apply paid_start|exact P]|].
  split; [intros g u [X|[X|[]]]; apply (f_equal snd) in X; unfold snd in X; rewrite <- X; [rewrite D|rewrite D0]; exact log_snapshot|].
  split; [reflexivity|]. split; [exact I|]. vm_compute. reflexivity.
Qed.

Print Assumptions C121_counter.
Print Assumptions C121_contract_order.
Print Assumptions C121_chains_agree.
