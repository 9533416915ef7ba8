(** * Property theorems: the electra queues, requests and consolidations *)
From Verif Require Import Base BaseLemmas Types Ctx Env Helpers HelpersAltair HelpersElectra Block Epoch StLemmas Frame
  SpecCommon SpecShuffle SpecHelpers SpecElectra SpecOps SpecBlock SpecAtt SpecEpoch SpecUpgrade SpecFlow SpecQueues
  HelperProofs HelperProofs2 OpsProofs ElectraProofs SlashProofs BlockProofs AttProofs EpochProofs FlowProofs UpgradeProofs QueueProofs QueueProofs2
  ToyCtx Toy Toy2 Toy3.
From Coq Require Import Sorted.

(** a state for the examples: validators of the given credential kinds, effective balances and balances *)
Definition queue_validator (i kind eff : N) : Validator :=
  mkValidator (toy_pk i) (kind :: repeat 0 11 ++ repeat 66 20) eff false 0 0 FAR_FUTURE_EPOCH FAR_FUTURE_EPOCH.
Definition queue_state (vs : list Validator) (bs : list N) : BeaconState := set_validators vs (set_balances bs (tiny_state (lenN vs) 29)).

(** ** C49: churn of consolidations *)
(** What the code computes: the earliest epoch whose capacity, at the activation/exit limit, covers the balance. *)
Theorem C49_as_coded_partial : forall (E : Env) (s : BeaconState) (bal : N),
  ctx_sane E -> ctx_sane_electra E -> slot_small s -> active_balance_fits E s ->
  consolidation_balance_to_consume s < 2 ^ 62 -> bal < 2 ^ 62 -> consolidation_start E s < 2 ^ 63 ->
  exists q, compute_consolidation_epoch_and_update_churn E bal s =
      (Ok q, set_earliest_consolidation_epoch q (set_consolidation_balance_to_consume (consolidation_capacity E (exit_churn E s) s q - bal) s))
    /\ consolidation_start E s <= q /\ bal <= consolidation_capacity E (exit_churn E s) s q
    /\ (forall e, consolidation_start E s <= e -> bal <= consolidation_capacity E (exit_churn E s) s e -> q <= e).
Proof.
  intros E s bal Hc He Hs Hf Hx Hb Hq. exists (consolidation_slot E s bal). split; [apply consolidation_epoch_ok; assumption|].
  split; [unfold consolidation_slot; lia|]. apply consolidation_capacity_slot; assumption.
Qed.
(** It is not limited by the consolidation churn: more than that can be scheduled by the returned epoch. *)
Definition churn_toy : BeaconState :=
  queue_state [queue_validator 0 2 2048000000000; queue_validator 1 2 2048000000000; queue_validator 2 2 2048000000000; queue_validator 3 1 96000000000]
    [2048000000000; 2048000000000; 2048000000000; 96000000000].
Theorem C49_exceeds_limit_refuted : exists (E : Env) (s s' : BeaconState) (bal q : N),
  ctx_sane E /\ ctx_sane_electra E /\ slot_small s /\ active_balance_fits E s /\ MIN_ACTIVATION_BALANCE E < consolidation_churn E s
  /\ compute_consolidation_epoch_and_update_churn E bal s = (Ok q, s')
  /\ consolidation_capacity E (consolidation_churn E s) s q < bal.
Proof.
  exists tiny, churn_toy, (snd (compute_consolidation_epoch_and_update_churn tiny 96000000000 churn_toy)), 96000000000, 12.
  split; [exact tiny_sane|]. split; [exact tiny_sane_electra|]. split; [vm_compute; reflexivity|]. split; [vm_compute; reflexivity|]. split; [vm_compute; reflexivity|].
  split; vm_compute; reflexivity.
Qed.
Example C49_example : consolidation_churn tiny churn_toy = 67000000000 /\ exit_churn tiny churn_toy = 128000000000 /\ consolidation_start tiny churn_toy = 12.
Proof. split; [|split]; vm_compute; reflexivity. Qed.

(** ** C50: pending deposits *)
Theorem C50_pending_deposits : forall (E : Env) (s : BeaconState),
  ctx_sane E -> ctx_sane_electra E -> slot_small s -> active_balance_fits E s -> queue_sound s -> deposit_balance_to_consume s < 2 ^ 62 ->
  exists k bs, let q := pending_balance_deposits s in
    covered (deposit_budget E s) q k
    /\ process_pending_balance_deposits E s
       = (Ok tt, set_deposit_balance_to_consume (if k =? lenN q then 0 else deposit_budget E s - queue_total (firstN k q))
                  (set_pending_balance_deposits (skipN k q) (set_balances bs s)))
    /\ lenN bs = lenN (balances s)
    /\ (forall i b, nthN (balances s) i = Some b -> nthN bs i = Some (b + queued_for (firstN k q) i))
    /\ sumN bs + queue_total (skipN k q) = sumN (balances s) + queue_total q.
Proof.
  intros E s Hc He Hs Hf Hq Hd. destruct (pending_deposits_run E Hc He s Hs Hf Hq Hd) as (k & H1 & H2). exists k, (credited (firstN k (pending_balance_deposits s)) (balances s)).
  cbv zeta in *. split; [exact H1|]. split; [exact H2|]. split; [apply len_credited|]. split; [intros i b Hb; apply nth_credited; exact Hb|].
  destruct Hq as (_ & Hr & _). rewrite sum_credited.
  - rewrite <- (firstN_skipN k (pending_balance_deposits s)) at 3. rewrite queue_total_app. lia.
  - intros d Hin. apply Hr. rewrite <- (firstN_skipN k (pending_balance_deposits s)). apply in_or_app. left; exact Hin.
Qed.
(** The entries credited are exactly the maximal prefix the budget covers. *)
Theorem C50_prefix_unique : forall (budget : N) (l : list PendingBalanceDeposit) (j k : N), covered budget l j -> covered budget l k -> j = k.
Proof.
  assert (Hmono : forall (l : list PendingBalanceDeposit) a b, a <= b -> queue_total (firstN a l) <= queue_total (firstN b l)).
  { induction l as [|d l IH]; intros a b H; [unfold firstN; rewrite !firstn_nil; lia|]. destruct (N.eq_dec a 0) as [->|Ha]; [rewrite firstN_0, queue_total_nil; lia|].
    replace a with (a - 1 + 1) by lia. replace b with (b - 1 + 1) by lia. rewrite !firstN_succ, !queue_total_cons. specialize (IH (a - 1) (b - 1) ltac:(lia)). lia. }
  assert (Hle : forall budget l j k, covered budget l j -> covered budget l k -> j <= k).
  { intros budget l j k (J1 & J2 & J3) (K1 & K2 & K3). destruct (N.le_gt_cases j k) as [H|H]; [exact H|]. specialize (K3 ltac:(lia)). specialize (Hmono l (k + 1) j ltac:(lia)). lia. }
  intros budget l j k Hj Hk. apply N.le_antisymm; eauto.
Qed.
Definition deposits_toy : BeaconState :=
  set_deposit_balance_to_consume 10 (set_pending_balance_deposits [mkPBD 0 20; mkPBD 1 1000000000; mkPBD 0 5; mkPBD 1 90000000000] (tiny_state 4 29)).
Example C50_example : queue_sound deposits_toy /\ active_balance_fits tiny deposits_toy /\ deposit_budget tiny deposits_toy = 64000000010
  /\ covered (deposit_budget tiny deposits_toy) (pending_balance_deposits deposits_toy) 3
  /\ (let '(r, s') := process_pending_balance_deposits tiny deposits_toy in
      r = Ok tt /\ balances s' = [32000000025; 33000000000; 32000000000; 32000000000] /\ pending_balance_deposits s' = [mkPBD 1 90000000000]
      /\ deposit_balance_to_consume s' = 62999999985).
Proof.
  split; [|split; [vm_compute; reflexivity|split; [vm_compute; reflexivity|split]]].
  - split; [reflexivity|]. split; [|vm_compute; reflexivity]. intros d Hd. cbn in Hd. destruct Hd as [<-|[<-|[<-|[<-|[]]]]]; vm_compute; reflexivity.
  - unfold covered. vm_compute. split; [discriminate|]. split; [discriminate|reflexivity].
  - vm_compute. auto.
Qed.

(** ** C51: pending consolidations *)
Theorem C51_consolidations : forall (E : Env) (s : BeaconState),
  ctx_sane E -> queue_sound s -> consolidations_sound s ->
  exists k, due_prefix E s k
    /\ process_pending_consolidations E s
       = (Ok tt, set_pending_consolidations (skipN k (pending_consolidations s)) (fold_left (consolidated E) (firstN k (pending_consolidations s)) s)).
Proof. intros E s Hc Hq Hs. destruct (consolidations_run E Hc s Hq Hs) as (k & H1 & H2 & _). exists k. auto. Qed.
(** No stake appears or vanishes. *)
Theorem C51_conserved : forall (E : Env) (s s' : BeaconState) (r : res unit),
  ctx_sane E -> queue_sound s -> consolidations_sound s -> process_pending_consolidations E s = (r, s') ->
  r = Ok tt /\ sumN (balances s') + queue_total (pending_balance_deposits s') = sumN (balances s) + queue_total (pending_balance_deposits s)
  /\ lenN (balances s') = lenN (balances s)
  /\ (forall i v, nthN (validators s) i = Some v -> exists wc, nthN (validators s') i = Some (set_v_withdrawal_credentials wc v)).
Proof.
  intros E s s' r Hc Hq Hs Hr. destruct (consolidations_run E Hc s Hq Hs) as (k & _ & H2 & (_ & _ & A3 & A4 & A5 & _)). rewrite H2 in Hr. cbv zeta in Hr. injection Hr as <- <-.
  gs. unfold total_stake in A5. auto.
Qed.
(** One due entry between two different validators: the source keeps what exceeds its cap, and the rest goes to the target,
    whose own excess was queued if it became compounding. *)
Theorem C51_one_entry : forall (E : Env) (s : BeaconState) (c : PendingConsolidation) (v w : Validator) (a b : N),
  nthN (validators s) (pc_source_index c) = Some v -> nthN (validators s) (pc_target_index c) = Some w -> pc_source_index c <> pc_target_index c ->
  nthN (balances s) (pc_source_index c) = Some a -> nthN (balances s) (pc_target_index c) = Some b -> v_slashed v = false ->
  let moved := N.min a (balance_cap E Electra v) in
  let kept := if kind_is 1 w then N.min b (MIN_ACTIVATION_BALANCE E) else b in
  nthN (balances (consolidated E s c)) (pc_source_index c) = Some (a - moved)
  /\ nthN (balances (consolidated E s c)) (pc_target_index c) = Some (kept + moved)
  /\ (forall i, i <> pc_source_index c -> i <> pc_target_index c -> nthN (balances (consolidated E s c)) i = nthN (balances s) i).
Proof.
  intros E s c v w a b Hv Hw Hne Ha Hb Hsl. cbv zeta. unfold consolidated. rewrite Hv, Hsl. cbv zeta. gs. unfold active_part, balance_at.
  assert (Hc : nthN (validators (compounded E (pc_target_index c) s)) (pc_source_index c) = Some v
     /\ nthN (balances (compounded E (pc_target_index c) s)) (pc_target_index c) = Some (if kind_is 1 w then N.min b (MIN_ACTIVATION_BALANCE E) else b)
     /\ forall i, i <> pc_target_index c -> nthN (balances (compounded E (pc_target_index c) s)) i = nthN (balances s) i).
  { unfold compounded. rewrite Hw, Hb. destruct (kind_is 1 w); [|auto]. cbv zeta. assert (Hlt : pc_target_index c < lenN (balances s)) by (eapply nthN_some; eauto).
    destruct (N.ltb_spec (MIN_ACTIVATION_BALANCE E) b); gs; (split; [rewrite nthN_updN_ne by congruence; exact Hv|]).
    - split; [rewrite nthN_updN_eq by exact Hlt; f_equal; lia|]. intros i Hi. apply nthN_updN_ne. congruence.
    - split; [rewrite Hb; f_equal; lia|auto]. }
  destruct Hc as (C1 & C2 & C3). set (s1 := compounded E (pc_target_index c) s) in *. rewrite C1, (C3 _ Hne), Ha. set (m := N.min a (balance_cap E Electra v)).
  assert (Hm : m <= a) by (unfold m; lia). clearbody m.
  assert (Hd : forall i, nthN (debit (pc_source_index c) m (balances s1)) i = if i =? pc_source_index c then Some (a - m) else nthN (balances s1) i).
  { intros i. unfold debit. rewrite (C3 _ Hne), Ha. destruct (N.eqb_spec i (pc_source_index c)) as [->|Hi].
    - apply nthN_updN_eq. eapply nthN_some. rewrite (C3 _ Hne). exact Ha.
    - apply nthN_updN_ne. congruence. }
  rewrite !nthN_credit, !Hd. destruct (N.eqb_spec (pc_source_index c) (pc_target_index c)); [contradiction|]. rewrite !N.eqb_refl.
  destruct (N.eqb_spec (pc_target_index c) (pc_source_index c)); [congruence|]. rewrite C2. split; [reflexivity|]. split; [reflexivity|].
  intros i Hi Hi'. rewrite nthN_credit. destruct (N.eqb_spec i (pc_target_index c)); [contradiction|]. rewrite Hd. destruct (N.eqb_spec i (pc_source_index c)); [contradiction|]. auto.
Qed.
Definition consolidate_toy : BeaconState :=
  let gone i := set_v_withdrawable_epoch 5 (set_v_exit_epoch 5 (queue_validator i 1 32000000000)) in
  set_pending_consolidations [mkPC 0 1; mkPC 2 1; mkPC 3 0; mkPC 4 1]
   (queue_state [gone 0; queue_validator 1 1 32000000000; set_v_slashed true (gone 2); queue_validator 3 1 32000000000; gone 4]
     [33000000000; 35000000000; 32000000000; 32000000000; 32000000000]).
Example C51_example : queue_sound consolidate_toy /\ consolidations_sound consolidate_toy /\ due_prefix tiny consolidate_toy 2
  /\ (let '(r, s') := process_pending_consolidations tiny consolidate_toy in
      r = Ok tt /\ balances s' = [1000000000; 64000000000; 32000000000; 32000000000; 32000000000] /\ pending_consolidations s' = [mkPC 3 0; mkPC 4 1]
      /\ pending_balance_deposits s' = [mkPBD 1 3000000000]).
Proof.
  split; [split; [reflexivity|split; [intros d []|vm_compute; reflexivity]]|]. split.
  { intros c Hc. cbn in Hc. destruct Hc as [<-|[<-|[<-|[<-|[]]]]]; vm_compute; auto. }
  split; [|vm_compute; auto]. split; [vm_compute; discriminate|]. split.
  - intros c Hc. vm_compute in Hc. destruct Hc as [<-|[<-|[]]]; (eexists; split; [reflexivity|]); [right; vm_compute; discriminate|left; reflexivity].
  - intros c Hc. vm_compute in Hc. injection Hc as <-. intros (v & Hv & H). vm_compute in Hv. injection Hv as <-. vm_compute in H. destruct H as [H|H]; [discriminate|apply H; reflexivity].
Qed.

(** ** C52: compounding credentials *)
Theorem C52_switch : forall (E : Env) (s : BeaconState) (i : N) (v : Validator) (b : N),
  nthN (validators s) i = Some v -> nthN (balances s) i = Some b -> lenN (balances s) = lenN (validators s) ->
  exists s', switch_to_compounding_validator E i s = (Ok tt, s')
    /\ (if kind_is 1 v
        then s' = set_pending_balance_deposits (pending_balance_deposits s ++ (if MIN_ACTIVATION_BALANCE E <? b then [mkPBD i (b - MIN_ACTIVATION_BALANCE E)] else []))
                   (set_balances (updN (balances s) i (N.min b (MIN_ACTIVATION_BALANCE E)))
                     (set_validators (updN (validators s) i (set_v_withdrawal_credentials (2 :: skipn 1 (v_withdrawal_credentials v)) v)) s))
        else s' = s)
    /\ balance_at s' i + queued_for (pending_balance_deposits s') i = balance_at s i + queued_for (pending_balance_deposits s) i
    /\ sumN (balances s') + queue_total (pending_balance_deposits s') = sumN (balances s) + queue_total (pending_balance_deposits s).
Proof.
  intros E s i v b Hv Hb Hl. exists (compounded E i s). assert (Hi : i < lenN (validators s)) by (eapply nthN_some; eauto). assert (Hi' : i < lenN (balances s)) by (eapply nthN_some; eauto).
  split; [apply compounded_run; assumption|]. split; [|split; [|exact (total_compounded E s i)]].
  - unfold compounded. rewrite Hv, Hb. destruct (kind_is 1 v); [|reflexivity]. cbv zeta. destruct (N.ltb_spec (MIN_ACTIVATION_BALANCE E) b).
    + rewrite N.min_r by lia. reflexivity.
    + rewrite N.min_l by lia. rewrite app_nil_r, (updN_id (balances s) i b Hb). destruct s; reflexivity.
  - unfold compounded, balance_at. rewrite Hv, Hb. destruct (kind_is 1 v); [|rewrite Hb; reflexivity]. cbv zeta. destruct (N.ltb_spec (MIN_ACTIVATION_BALANCE E) b); gs.
    + rewrite nthN_updN_eq by exact Hi'. rewrite queued_app. unfold queued_for at 2. cbn [filter pbd_index]. rewrite N.eqb_refl. cbn [map pbd_amount]. rewrite sumN_cons. change (sumN []) with 0. lia.
    + rewrite Hb. reflexivity.
Qed.
(** The reset of a validator that was never activated queues its whole balance. *)
Theorem C52_reset : forall (E : Env) (s : BeaconState) (i : N) (v : Validator) (b : N),
  nthN (validators s) i = Some v -> nthN (balances s) i = Some b ->
  queue_entire_balance_and_reset_validator i s
  = (Ok tt, set_pending_balance_deposits (pending_balance_deposits s ++ [mkPBD i b])
       (set_validators (updN (validators s) i (set_v_activation_eligibility_epoch FAR_FUTURE_EPOCH (set_v_effective_balance 0 v)))
         (set_balances (updN (balances s) i 0) s))).
Proof. intros E s i v b Hv Hb. exact (queue_entire_run s i v b Hv Hb). Qed.
Example C52_example : kind_is 1 (queue_validator 1 1 32000000000) = true /\ kind_is 1 (queue_validator 0 2 32000000000) = false
  /\ (let '(r, s') := switch_to_compounding_validator tiny 1 consolidate_toy in
      r = Ok tt /\ balance_at s' 1 = 32000000000 /\ pending_balance_deposits s' = [mkPBD 1 3000000000] /\ is_compounding s' 1 = true).
Proof. split; [reflexivity|]. split; [reflexivity|]. vm_compute. auto. Qed.

(** ** C53: withdrawal requests of the execution layer *)
(** A granted full exit starts the exit; a granted partial withdrawal queues the granted amount at the earliest epoch the
    churn allows; every other request is ignored without error. *)
Theorem C53_requests : forall (E : Env) (s : BeaconState) (r : ExecutionLayerWithdrawalRequest),
  ctx_sane E -> ctx_sane_electra E -> SHARD_COMMITTEE_PERIOD E <= 2 ^ 32 -> slot_small s -> lenN (balances s) = lenN (validators s) ->
  (forall i, pending_balance_of s i < 2 ^ 62) ->
  active_balance_fits E s -> exit_balance_to_consume s < 2 ^ 62 -> exit_queue_start E s < 2 ^ 62 -> (forall b, In b (balances s) -> b < 2 ^ 62) ->
  (forall i, full_exit_granted E s r i -> process_execution_layer_withdrawal_request E r s = initiate_exit E Electra i s)
  /\ (forall i amount, partial_granted E s r i amount ->
        exists q, process_execution_layer_withdrawal_request E r s
          = (Ok tt, set_pending_partial_withdrawals (pending_partial_withdrawals s ++ [mkPPW i amount (q + MIN_VALIDATOR_WITHDRAWABILITY_DELAY E)])
                (set_earliest_exit_epoch q (set_exit_balance_to_consume (exit_capacity E s q - amount) s)))
          /\ exit_queue_start E s <= q /\ amount <= exit_capacity E s q
          /\ (forall e, exit_queue_start E s <= e -> amount <= exit_capacity E s e -> q <= e))
  /\ ((forall i, ~ full_exit_granted E s r i) -> (forall i amount, ~ partial_granted E s r i amount) ->
        process_execution_layer_withdrawal_request E r s = (Ok tt, s)).
Proof.
  intros E s r Hc He Hsh Hs Hl Hp Hf Hx Hq Hbal. destruct (request_action E Hc He s r Hs Hsh Hl Hp) as (act & Ha & H1 & H2).
  unfold process_execution_layer_withdrawal_request. rewrite (run_rd _ _ _ act) by exact Ha. split; [|split].
  - intros i Hi. apply H1 in Hi as ->. reflexivity.
  - intros i amount Hi. pose proof Hi as (_ & _ & v & Hauth & _ & _ & _ & Ham). apply H2 in Hi as ->. exists (exit_slot E s amount).
    assert (Hlt : amount < 2 ^ 62).
    { assert (Hb : balance_at s i < 2 ^ 62); [|lia]. unfold balance_at. destruct (nthN (balances s) i) eqn:Hb; [apply Hbal; eapply nthN_In; eauto|reflexivity]. }
    split; [apply partial_run; assumption|]. split; [apply exit_slot_ge|]. apply exit_capacity_slot; assumption.
  - intros Hn1 Hn2. destruct act as [|i|i amount]; [reflexivity|exfalso; apply (Hn1 i), H1; reflexivity|exfalso; apply (Hn2 i amount), H2; reflexivity].
Qed.
(** At most one outcome applies. *)
Theorem C53_exclusive : forall (E : Env) (s : BeaconState) (r : ExecutionLayerWithdrawalRequest) (i j a : N),
  full_exit_granted E s r i -> ~ partial_granted E s r j a.
Proof. intros E s r i j a (H1 & _) (H2 & _). contradiction. Qed.
(** A partial withdrawal leaves at least the activation balance, also after everything already queued for the validator. *)
Theorem C53_floor : forall (E : Env) (s : BeaconState) (r : ExecutionLayerWithdrawalRequest) (i a : N),
  partial_granted E s r i a -> MIN_ACTIVATION_BALANCE E + pending_balance_of s i + a <= balance_at s i /\ 0 < a.
Proof. intros E s r i a (H0 & _ & v & _ & _ & _ & H & ->). lia. Qed.
Definition request_toy : BeaconState :=
  set_pending_partial_withdrawals [mkPPW 0 3000000000 9] (queue_state [queue_validator 0 2 64000000000; queue_validator 1 1 32000000000] [64000000000; 32000000000]).
Definition request (i amount : N) : ExecutionLayerWithdrawalRequest := mkELW (repeat 66 20) (toy_pk i) amount.
Lemma request_toy_authorised i v : nthN [queue_validator 0 2 64000000000; queue_validator 1 1 32000000000] i = Some v -> request_authorised tiny request_toy (request i 0) i v.
Proof.
  intros H. assert (i < 2) by (eapply nthN_some in H; exact H). assert (Hi : i = 0 \/ i = 1) by lia. destruct Hi as [-> | ->]; vm_compute in H; injection H as <-.
  - split; [|split; [reflexivity|split; [reflexivity|split; [reflexivity|split; [reflexivity|split; [reflexivity|vm_compute; discriminate]]]]]]. split; [reflexivity|]. intros j Hj. lia.
  - split; [|split; [reflexivity|split; [reflexivity|split; [reflexivity|split; [reflexivity|split; [reflexivity|vm_compute; discriminate]]]]]]. split; [reflexivity|]. intros j Hj. assert (j = 0) by lia. subst j. vm_compute. discriminate.
Qed.
Example C53_example : full_exit_granted tiny request_toy (request 1 0) 1 /\ partial_granted tiny request_toy (request 0 30000000000) 0 29000000000
  /\ (forall i, ~ full_exit_granted tiny request_toy (mkELW (repeat 67 20) (toy_pk 1) 0) i)
  /\ (let '(r, s') := process_execution_layer_withdrawal_request tiny (request 0 30000000000) request_toy in
      r = Ok tt /\ pending_partial_withdrawals s' = [mkPPW 0 3000000000 9; mkPPW 0 29000000000 268])
  /\ fst (process_execution_layer_withdrawal_request tiny (request 1 0) request_toy) = Ok tt.
Proof.
  split; [split; [reflexivity|split; [reflexivity|]]; exists (queue_validator 1 1 32000000000); apply request_toy_authorised; reflexivity|].
  split.
  { split; [discriminate|]. split; [vm_compute; discriminate|]. exists (queue_validator 0 2 64000000000).
    split; [exact (request_toy_authorised 0 _ eq_refl)|]. split; [reflexivity|]. split; [vm_compute; discriminate|]. split; vm_compute; reflexivity. }
  split.
  { intros i (_ & _ & v & (Hk & Hv & _ & Ha & _)). assert (i < 2) by (eapply nthN_some in Hv; exact Hv). assert (Hi : i = 0 \/ i = 1) by lia.
    destruct Hi as [-> | ->]; vm_compute in Hv; injection Hv as <-; vm_compute in Ha; discriminate. }
  split; vm_compute; auto.
Qed.

(** ** C55: attesters of several committees *)
(** With one committee bit set, exactly the members whose aggregation bit is set are counted.  The full property, for any number
    of committees, fails: see the next theorem. *)
Theorem C55_one_committee_partial : forall (E : Env) (s : BeaconState) (a : Attestation) (c : N) (com : list N),
  ctx_sane E -> hash_wf (hash E) -> state_shape E s -> ad_slot (at_data a) < 2 ^ 60 ->
  c < committees_in_slot E s (ad_slot (at_data a) / SLOTS_PER_EPOCH E) -> is_committee E s (ad_slot (at_data a)) c com ->
  get_committee_indices (at_committee_bits a) = [c] -> lenN (at_aggregation_bits a) = lenN com ->
  exists l, get_attesting_indices_electra E s a = Ok l
    /\ forall v, In v l <-> exists k, nthN (at_aggregation_bits a) k = Some true /\ nthN com k = Some v.
Proof.
  intros E s a c com Hc Hw Hsh Hsl Hcc Hcom Hbits Hlen.
  destruct (attesting_electra_ok E s a [com]) as (l & H1 & H2).
  - rewrite Hbits. constructor; [|constructor]. apply (committee_spec E Hc Hw); assumption.
  - intros m com' Hm. rewrite nthN_cons in Hm. destruct (N.eqb_spec m 0) as [->|]; [|rewrite nthN_nil in Hm; discriminate]. injection Hm as <-. lia.
  - exists l. split; [exact H1|]. intros v. rewrite H2. split.
    + intros (m & com' & Hm & k & K1 & K2). rewrite nthN_cons in Hm. destruct (N.eqb_spec m 0) as [->|]; [|rewrite nthN_nil in Hm; discriminate]. injection Hm as <-. rewrite N.add_0_l in K2. eauto.
    + intros (k & K1 & K2). exists 0, com. split; [reflexivity|]. exists k. rewrite N.add_0_l. auto.
Qed.
Example C55_bits_example : get_committee_indices [false; true; false; true] = [1; 3] /\ get_committee_indices [false; true] = [1].
Proof. split; reflexivity. Qed.
(** Two committees of four; only the first member of the second committee signed, but the code counts the last one. *)
Definition att_electra_toy : BeaconState := tiny_state 32 13.
Definition attestation_two : Attestation :=
  mkAtt [false; false; false; false; true; false; false; false] (mkAttData 12 0 zero32 (mkCheckpoint 0 zero32) (mkCheckpoint 3 zero32)) [true; true] [].
Definition committee_toy (c : N) : list N := match get_beacon_committee tiny att_electra_toy 12 c with Ok l => l | _ => [] end.
Theorem C55_two_committees_refuted : exists (E : Env) (s : BeaconState) (a : Attestation) (com0 com1 l : list N) (v : N),
  ctx_sane E /\ hash_wf (hash E) /\ state_shape E s /\ at_committee_bits a = [true; true]
  /\ is_committee E s (ad_slot (at_data a)) 0 com0 /\ is_committee E s (ad_slot (at_data a)) 1 com1
  /\ lenN (at_aggregation_bits a) = lenN com0 + lenN com1
  /\ get_attesting_indices_electra E s a = Ok l
  /\ nthN com1 0 = Some v /\ nthN (at_aggregation_bits a) (lenN com0 + 0) = Some true /\ ~ In v l
  /\ exists w, In w l /\ nthN com1 3 = Some w /\ nthN (at_aggregation_bits a) (lenN com0 + 3) = Some false.
Proof.
  assert (Hcom : forall c, c < 2 -> get_beacon_committee tiny att_electra_toy 12 c = Ok (committee_toy c)).
  { intros c Hlt. assert (Hi : c = 0 \/ c = 1) by lia. destruct Hi as [-> | ->]; vm_compute; reflexivity. }
  assert (Hspec : forall c, c < 2 -> is_committee tiny att_electra_toy 12 c (committee_toy c)).
  { intros c Hlt. apply (committee_spec tiny tiny_sane toy_hash_wf); [vm_compute; repeat split; discriminate|reflexivity|exact Hlt|apply Hcom; exact Hlt]. }
  set (v := nth 0 (committee_toy 1) 0). set (w := nth 3 (committee_toy 1) 0).
  exists tiny, att_electra_toy, attestation_two, (committee_toy 0), (committee_toy 1), [w], v.
  split; [exact tiny_sane|]. split; [exact toy_hash_wf|]. split; [vm_compute; repeat split; discriminate|]. split; [reflexivity|].
  split; [apply Hspec; reflexivity|]. split; [apply Hspec; reflexivity|]. split; [vm_compute; reflexivity|]. split; [vm_compute; reflexivity|].
  split; [vm_compute; reflexivity|]. split; [vm_compute; reflexivity|]. split; [intros [H|[]]; vm_compute in H; discriminate|].
  exists w. split; [left; reflexivity|]. split; vm_compute; reflexivity.
Qed.

(** ** C56: eth1 deposits in electra blocks *)
(** While eth1 deposits are outstanding, no block can be processed: the correct number of deposits is rejected as well. *)
Theorem C56_outstanding_refuted : forall (E : Env) (s : BeaconState) (b : BeaconBlockBody),
  eth1_deposit_index s < N.min (e1_deposit_count (eth1_data s)) (deposit_receipts_start_index s) -> 1 <= MAX_DEPOSITS E ->
  rejected (process_operations E Electra b) s.
Proof.
  intros E s b Hlt Hmax. apply guard_rejects, not_ok. intros [] H. unfold deposit_count_check in H.
  destruct (N.ltb_spec (eth1_deposit_index s) (N.min (e1_deposit_count (eth1_data s)) (deposit_receipts_start_index s))); [|lia].
  unfold sub in H. rewrite usub_ok in H by lia. cbn [rbind] in H.
  destruct (N.eqb_spec (lenN (bb_deposits b)) (N.min (MAX_DEPOSITS E) (N.min (e1_deposit_count (eth1_data s)) (deposit_receipts_start_index s) - eth1_deposit_index s))) as [He|He]; cbn [negb] in H; [|discriminate].
  apply require_ok, N.eqb_eq in H. lia.
Qed.
(** Afterwards the number of deposits is not checked at all. *)
Theorem C56_surplus_refuted : forall (E : Env) (s : BeaconState) (b : BeaconBlockBody),
  N.min (e1_deposit_count (eth1_data s)) (deposit_receipts_start_index s) <= eth1_deposit_index s ->
  deposit_count_check E Electra b s = Ok tt.
Proof. intros E s b H. unfold deposit_count_check. destruct (N.ltb_spec (eth1_deposit_index s) (N.min (e1_deposit_count (eth1_data s)) (deposit_receipts_start_index s))); [lia|reflexivity]. Qed.
Definition outstanding_toy : BeaconState := set_deposit_receipts_start_index 100 (set_eth1_deposit_index 3 (tiny_state 4 13)).
Example C56_example : eth1_deposit_index outstanding_toy < N.min (e1_deposit_count (eth1_data outstanding_toy)) (deposit_receipts_start_index outstanding_toy) /\ 1 <= MAX_DEPOSITS tiny
  /\ N.min (e1_deposit_count (eth1_data (tiny_state 4 13))) (deposit_receipts_start_index (tiny_state 4 13)) <= eth1_deposit_index (tiny_state 4 13).
Proof. split; [reflexivity|]. split; vm_compute; discriminate. Qed.

(** ** C57: consolidation operations *)
(** Anything but a valid consolidation is rejected and changes nothing. *)
Theorem C57_rejects_invalid : forall (E : Env) (s : BeaconState) (op : SignedConsolidation),
  ctx_sane E -> active_balance_fits E s -> (forall src tgt, ~ consolidation_valid E s op src tgt) -> rejected (process_consolidation E op) s.
Proof.
  intros E s op Hc Hf Hn. apply guard_rejects, not_ok. intros [src tgt] H. apply (Hn src tgt). apply consolidation_checks_iff; assumption.
Qed.
(** What happens with a valid one.  Missing for the full property: the source's withdrawable epoch should be its new exit epoch plus
    the delay, and checked builds should not panic; the next two theorems show both fail always. *)
Theorem C57_as_coded_partial : forall (E : Env) (s : BeaconState) (op : SignedConsolidation) (src tgt : Validator),
  ctx_sane E -> ctx_sane_electra E -> slot_small s -> active_balance_fits E s -> 1 <= MIN_VALIDATOR_WITHDRAWABILITY_DELAY E ->
  consolidation_balance_to_consume s < 2 ^ 62 -> v_effective_balance src < 2 ^ 62 -> consolidation_start E s < 2 ^ 63 ->
  consolidation_valid E s op src tgt -> chk E = false ->
  let c := scn_message op in
  exists q, consolidation_start E s <= q /\ v_effective_balance src <= consolidation_capacity E (exit_churn E s) s q
    /\ (forall e, consolidation_start E s <= e -> v_effective_balance src <= consolidation_capacity E (exit_churn E s) s e -> q <= e)
    /\ process_consolidation E op s =
      (Ok tt, set_pending_consolidations (pending_consolidations s ++ [mkPC (cn_source_index c) (cn_target_index c)])
         (set_validators (updN (validators s) (cn_source_index c)
             (set_v_withdrawable_epoch (MIN_VALIDATOR_WITHDRAWABILITY_DELAY E - 1) (set_v_exit_epoch q src)))
           (set_earliest_consolidation_epoch q (set_consolidation_balance_to_consume (consolidation_capacity E (exit_churn E s) s q - v_effective_balance src) s)))).
Proof.
  intros E s op src tgt Hc He Hs Hf Hd Hb Heff Hq Hv Hchk c. exists (consolidation_slot E s (v_effective_balance src)).
  split; [unfold consolidation_slot; lia|]. destruct (consolidation_capacity_slot E Hc He s (v_effective_balance src)) as [K1 K2]. split; [exact K1|]. split; [exact K2|].
  rewrite (consolidation_run E Hc He op s src tgt) by assumption. rewrite Hchk. reflexivity.
Qed.
Theorem C57_checked_build_refuted : forall (E : Env) (s : BeaconState) (op : SignedConsolidation) (src tgt : Validator),
  ctx_sane E -> ctx_sane_electra E -> slot_small s -> active_balance_fits E s -> 1 <= MIN_VALIDATOR_WITHDRAWABILITY_DELAY E ->
  consolidation_balance_to_consume s < 2 ^ 62 -> v_effective_balance src < 2 ^ 62 -> consolidation_start E s < 2 ^ 63 ->
  consolidation_valid E s op src tgt -> chk E = true -> fst (process_consolidation E op s) = Panic.
Proof.
  intros E s op src tgt Hc He Hs Hf Hd Hb Heff Hq Hv Hchk. rewrite (consolidation_run E Hc He op s src tgt) by assumption. rewrite Hchk. reflexivity.
Qed.
(** In a release build the source becomes withdrawable long before it exits. *)
Theorem C57_withdrawable_before_exit_refuted : forall (E : Env) (s : BeaconState) (op : SignedConsolidation) (src tgt : Validator),
  ctx_sane E -> ctx_sane_electra E -> slot_small s -> active_balance_fits E s -> 1 <= MIN_VALIDATOR_WITHDRAWABILITY_DELAY E ->
  consolidation_balance_to_consume s < 2 ^ 62 -> v_effective_balance src < 2 ^ 62 -> consolidation_start E s < 2 ^ 63 ->
  consolidation_valid E s op src tgt -> chk E = false -> MIN_VALIDATOR_WITHDRAWABILITY_DELAY E <= epoch_of E s ->
  exists v, nthN (validators (snd (process_consolidation E op s))) (cn_source_index (scn_message op)) = Some v
    /\ v_withdrawable_epoch v < epoch_of E s /\ epoch_of E s < v_exit_epoch v.
Proof.
  intros E s op src tgt Hc He Hs Hf Hd Hb Heff Hq Hv Hchk Hlate.
  destruct (C57_as_coded_partial E s op src tgt Hc He Hs Hf Hd Hb Heff Hq Hv Hchk) as (q & Hge & _ & _ & Hrun). rewrite Hrun.
  destruct Hv as (_ & _ & _ & Hsrc & _). eexists. split.
  - cbn [snd]. gs. apply nthN_updN_eq. eapply nthN_some; exact Hsrc.
  - split; [cbn; lia|]. cbn [v_exit_epoch set_v_exit_epoch set_v_withdrawable_epoch]. unfold consolidation_start, earliest_exit in Hge. lia.
Qed.
Definition consolidation_op : SignedConsolidation :=
  let c := mkConsolidation 3 0 7 in
  mkSignedConsolidation c (match compute_domain tiny DConsolidation None (Some (genesis_validators_root churn_toy)) with
                           | Ok d => toy_sign (toy_pk 3 ++ toy_pk 0) (tiny_signing_root d (OConsolidation c)) | _ => [] end).
Example C57_example :
  consolidation_valid tiny churn_toy consolidation_op (queue_validator 3 1 96000000000) (queue_validator 0 2 2048000000000)
  /\ consolidation_valid tiny_release churn_toy consolidation_op (queue_validator 3 1 96000000000) (queue_validator 0 2 2048000000000)
  /\ slot_small churn_toy /\ active_balance_fits tiny churn_toy /\ consolidation_balance_to_consume churn_toy < 2 ^ 62 /\ consolidation_start tiny churn_toy < 2 ^ 63
  /\ consolidation_checks tiny (mkSignedConsolidation (mkConsolidation 3 3 7) []) churn_toy = Err ECEqualIndices.
Proof.
  split; [apply consolidation_checks_iff; [exact tiny_sane|vm_compute; reflexivity|vm_compute; reflexivity]|].
  split; [apply consolidation_checks_iff; [exact tiny_sane|vm_compute; reflexivity|vm_compute; reflexivity]|].
  split; [vm_compute; reflexivity|]. split; [vm_compute; reflexivity|]. split; [vm_compute; reflexivity|]. split; vm_compute; reflexivity.
Qed.

Print Assumptions C49_as_coded_partial.
Print Assumptions C49_exceeds_limit_refuted.
Print Assumptions C50_pending_deposits.
Print Assumptions C50_prefix_unique.
Print Assumptions C51_consolidations.
Print Assumptions C51_conserved.
Print Assumptions C51_one_entry.
Print Assumptions C52_switch.
Print Assumptions C52_reset.
Print Assumptions C53_requests.
Print Assumptions C53_exclusive.
Print Assumptions C53_floor.
Print Assumptions C55_one_committee_partial.
Print Assumptions C55_two_committees_refuted.
Print Assumptions C56_outstanding_refuted.
Print Assumptions C56_surplus_refuted.
Print Assumptions C57_rejects_invalid.
Print Assumptions C57_as_coded_partial.
Print Assumptions C57_checked_build_refuted.
Print Assumptions C57_withdrawable_before_exit_refuted.
