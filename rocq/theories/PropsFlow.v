(** * Property theorems: deposits, sync aggregates, withdrawals, deposit proofs (C27, C36, C42, C43, C54, C71) *)
From Verif Require Import Base BaseLemmas Types Ctx Presets Env Helpers HelpersAltair HelpersElectra Block StLemmas
  SpecCommon SpecShuffle SpecHelpers SpecElectra SpecOps SpecBlock SpecAtt SpecEpoch SpecFlow
  HelperProofs HelperProofs2 OpsProofs AttProofs FlowProofs Toy ToyCtx Toy2 Toy3 PropsAtt.

Lemma ran {S A} (m : res A * S) (r : res A) : fst m = r -> m = (r, snd m).
Proof. intros <-. apply surjective_pairing. Qed.

(** ** C27: deposits from phase0 to deneb *)
Theorem C27_deposit : forall (E : Env) (f : Fork) (d : Deposit) (s : BeaconState),
  ctx_sane E -> f <> Electra -> lenN (balances s) = lenN (validators s) -> eth1_deposit_index s + 1 < 2 ^ 64 -> (exists dom, deposit_domain E dom) ->
  (forall b, In b (balances s) -> b + dd_amount (dep_data d) < 2 ^ 64) ->
  let pk := dd_public_key (dep_data d) in let wc := dd_withdrawal_credentials (dep_data d) in
  let amount := dd_amount (dep_data d) in let sig := dd_signature (dep_data d) in
  (~ deposit_proven E s d -> rejected (process_deposit E f d) s)
  /\ (deposit_proven E s d -> forall i, key_holder s pk i ->
        process_deposit E f d s = (Ok tt, set_balances (credit i amount (balances s)) (with_deposit_counted s)))
  /\ (deposit_proven E s d -> key_unknown s pk -> deposit_signed E pk wc amount sig ->
        process_deposit E f d s = (Ok tt, with_validator f (new_record E f pk wc amount) amount (with_deposit_counted s)))
  /\ (deposit_proven E s d -> key_unknown s pk -> ~ deposit_signed E pk wc amount sig ->
        process_deposit E f d s = (Ok tt, with_deposit_counted s)).
Proof.
  intros E f d s Hc Hf Hlen Hi Hd Hb pk wc amount sig. destruct (deposit_guard E f d s Hi) as [G1 G2]. split; [exact G2|].
  destruct (apply_deposit_early E Hc f pk wc amount sig (with_deposit_counted s) Hf Hlen Hd Hb) as (s' & A0 & A1 & A2 & A3).
  split; [|split]; intros Hp; rewrite (G1 Hp); fold pk wc amount sig; rewrite A0.
  - intros i Hk. rewrite (A1 i Hk). reflexivity.
  - intros Hu Hs. rewrite (A2 Hu Hs). reflexivity.
  - intros Hu Hs. rewrite (A3 Hu Hs). reflexivity.
Qed.
(** every key is either held or unknown, so the three cases are exhaustive *)
Theorem C27_cases : forall (s : BeaconState) (pk : bytes), (exists i, key_holder s pk i) \/ key_unknown s pk.
Proof.
  intros s pk. destruct (position_pk pk (validators s) 0) as [i|] eqn:H; [left; exists i; apply holder_position; exact H|right; apply unknown_position; exact H].
Qed.

(** toy deposits: a top-up of validator 1, a new validator with a good and with a bad signature *)
Definition toy_deposit (i amount : N) (good : bool) (proof : list bytes) : Deposit :=
  let m := mkDepMsg (toy_pk i) (1 :: repeat 0 31) amount in
  let sig := match compute_domain tiny DDeposit None None with Ok dom => toy_sign (toy_pk i) (tiny_signing_root dom (ODepositMessage m)) | _ => [] end in
  mkDeposit proof (mkDepData (toy_pk i) (1 :: repeat 0 31) amount (if good then sig else [1])).
Example C27_toy : let s := tiny_state 3 13 in
  deposit_proven tiny s (toy_deposit 1 5 true []) /\ key_holder s (toy_pk 1) 1 /\ key_unknown s (toy_pk 7) /\ (exists dom, deposit_domain tiny dom)
  /\ deposit_signed tiny (toy_pk 7) (1 :: repeat 0 31) 33500000000 (dd_signature (dep_data (toy_deposit 7 33500000000 true [])))
  /\ is_ok (fst (process_deposit tiny Deneb (toy_deposit 1 5 true [[0]]) s)) = false
  /\ balances (snd (process_deposit tiny Deneb (toy_deposit 1 5 false []) s)) = [32000000000; 32000000005; 32000000000]
  /\ balances (snd (process_deposit tiny Deneb (toy_deposit 7 33500000000 true []) s)) = [32000000000; 32000000000; 32000000000; 33500000000]
  /\ map v_effective_balance (validators (snd (process_deposit tiny Deneb (toy_deposit 7 17500000000 true []) s))) = [32000000000; 32000000000; 32000000000; 17000000000]
  /\ snd (process_deposit tiny Deneb (toy_deposit 7 33500000000 false []) s) = with_deposit_counted s.
Proof.
  cbv zeta. split; [eexists; split; vm_compute; reflexivity|]. split; [apply holder_position; vm_compute; reflexivity|]. split; [apply unknown_position; vm_compute; reflexivity|].
  assert (Hd : exists dom, deposit_domain tiny dom) by (eexists; apply deposit_domain_ok; vm_compute; reflexivity). split; [exact Hd|]. split.
  - destruct Hd as (dom & Hd).
    match goal with |- deposit_signed _ ?pk ?wc ?a ?sg => destruct (deposit_sig_cases tiny pk wc a sg dom Hd) as [[H _]|[_ [e He]]] end; [exact H|].
    exfalso. apply deposit_domain_ok in Hd. vm_compute in Hd. injection Hd as <-. vm_compute in He. discriminate.
  - repeat split; vm_compute; reflexivity.
Qed.
(** in electra a top-up whose signature does not verify fails the block instead of being credited (electra/block_processing.rs 620-686) *)
Theorem C27_electra_topup_refuted : exists (s : BeaconState) (d : Deposit) (i : N),
  deposit_proven tiny s d /\ key_holder s (dd_public_key (dep_data d)) i
  /\ is_ok (fst (process_deposit tiny Electra d s)) = false.
Proof.
  exists (tiny_state 3 13), (toy_deposit 1 5 false []), 1. split; [eexists; split; vm_compute; reflexivity|]. split; [apply holder_position; vm_compute; reflexivity|].
  vm_compute. reflexivity.
Qed.
(** and a deposit for a new key with an invalid signature is not ignored either *)
Theorem C27_electra_invalid_signature_refuted : exists (s : BeaconState) (d : Deposit),
  deposit_proven tiny s d /\ key_unknown s (dd_public_key (dep_data d)) /\ is_ok (fst (process_deposit tiny Electra d s)) = false.
Proof.
  exists (tiny_state 3 13), (toy_deposit 7 5 false []). split; [eexists; split; vm_compute; reflexivity|]. split; [apply unknown_position; vm_compute; reflexivity|].
  vm_compute. reflexivity.
Qed.

(** ** C36: sync aggregates *)
Theorem C36_sync_aggregate : forall (E : Env) (sa : SyncAggregate) (s : BeaconState) (p : N) (members : list N),
  ctx_sane E -> ctx_sane_att E -> state_shape E s -> slot_small s -> active_balance_fits E s -> 1 <= SYNC_COMMITTEE_SIZE E -> sync_rewards_fit E s ->
  lenN (balances s) = lenN (validators s) ->
  (forall b, In b (balances s) -> b + lenN (sa_bits sa) * (sync_member_reward E s + sync_proposer_reward E s) < 2 ^ 64) ->
  get_beacon_proposer_index E s = Ok p -> p < lenN (validators s) ->
  Forall2 (last_key_holder s) (sc_public_keys (current_sync_committee s)) members ->
  (sync_aggregate_valid E s sa -> process_sync_aggregate E sa s
     = (Ok tt, set_balances (sync_balances (sync_member_reward E s) (sync_proposer_reward E s) p (combine members (sa_bits sa)) (balances s)) s))
  /\ (~ sync_aggregate_valid E s sa -> rejected (process_sync_aggregate E sa) s).
Proof. intros. apply sync_aggregate_run; assumption. Qed.
Definition sync_toy : BeaconState := tiny_state 3 13.
Definition sync_toy_aggregate (bits : list bool) : SyncAggregate :=
  let keys := participating_keys (sc_public_keys (current_sync_committee sync_toy)) bits in
  mkSyncAgg bits (match get_domain tiny sync_toy DSyncCommittee (Some 3), get_block_root_at_slot tiny sync_toy 12 with
    | Ok dom, Ok r => toy_sign (concat keys) (tiny_signing_root dom (OBytes32 r)) | _, _ => [] end).
Example C36_toy : sync_aggregate_valid tiny sync_toy (sync_toy_aggregate [true; true; false; true])
  /\ ~ sync_aggregate_valid tiny sync_toy (mkSyncAgg [true; true; true; true] (sa_signature (sync_toy_aggregate [true; true; false; true])))
  /\ active_balance_fits tiny sync_toy /\ sync_rewards_fit tiny sync_toy
  /\ (forall b, In b (balances sync_toy) -> b + 4 * (sync_member_reward tiny sync_toy + sync_proposer_reward tiny sync_toy) < 2 ^ 64)
  /\ 0 < sync_proposer_reward tiny sync_toy
  /\ Forall2 (last_key_holder sync_toy) (sc_public_keys (current_sync_committee sync_toy)) [0; 1; 0; 1]
  /\ is_ok (get_beacon_proposer_index tiny sync_toy) = true.
Proof.
  assert (Hsh : state_shape tiny sync_toy) by (apply tiny_shape; vm_compute; discriminate).
  assert (Hs : slot_small sync_toy) by (vm_compute; reflexivity).
  split; [apply (sync_checks_iff tiny tiny_sane); [exact Hsh|exact Hs|vm_compute; reflexivity]|].
  split; [intros H; apply (sync_checks_iff tiny tiny_sane _ _ Hsh Hs) in H; vm_compute in H; discriminate|].
  split; [vm_compute; reflexivity|]. split; [split; vm_compute; reflexivity|].
  split; [intros b Hb; cbn in Hb; destruct Hb as [<-|[<-|[<-|[]]]]; vm_compute; reflexivity|].
  split; [vm_compute; reflexivity|]. split; [|vm_compute; reflexivity].
  assert (H0 : last_key_holder sync_toy (toy_pk 0) 0 /\ last_key_holder sync_toy (toy_pk 1) 1).
  { split; (split; [vm_compute; reflexivity|]); intros j Hj; unfold key_of; destruct (nthN (validators sync_toy) j) as [v|] eqn:Hn; try discriminate;
      pose proof (nthN_some _ _ _ Hn) as Hl; change (lenN (validators sync_toy)) with 3 in Hl; assert (Hc : j = 0 \/ j = 1 \/ j = 2) by lia;
      destruct Hc as [->|[->| ->]]; try lia; vm_compute in Hn; injection Hn as <-; vm_compute; discriminate. }
  destruct H0. repeat (constructor; [assumption|]). constructor.
Qed.

(** ** C42: the withdrawal sweep *)
(** electra also serves a queue of partial withdrawals (C54); without any the sweep is the same *)
Theorem C42_sweep : forall (E : Env) (f : Fork) (s : BeaconState),
  ctx_sane E -> (f = Electra -> pending_partial_withdrawals s = []) -> sweep_ready s -> withdrawal_limits E ->
  get_expected_withdrawals E f s = Ok (expected_withdrawals E f s, 0).
Proof. intros E f s Hc Hp Hr [HM _]. apply expected_ok; try assumption. exact (proj1 HM). Qed.
(** at most the limit, numbered consecutively, distinct validators *)
Theorem C42_list : forall (E : Env) (f : Fork) (s : BeaconState),
  lenN (expected_withdrawals E f s) <= MAX_WITHDRAWALS_PER_PAYLOAD E
  /\ (forall k w, nthN (expected_withdrawals E f s) k = Some w -> w_index w = next_withdrawal_index s + k)
  /\ NoDup (map w_validator_index (expected_withdrawals E f s))
  /\ (forall w, In w (expected_withdrawals E f s) -> due_at E f s (w_validator_index w) = Some (w_amount w)
        /\ w_address w = execution_address s (w_validator_index w)).
Proof.
  intros E f s. unfold expected_withdrawals. split; [|split; [|split]].
  - rewrite numbered_len. unfold swept, firstN, lenN. rewrite firstn_length. lia.
  - intros k w Hw. pose proof (nthN_some _ _ _ Hw) as Hl. rewrite numbered_len in Hl. destruct (nthN_lt _ _ Hl) as [i Hi].
    rewrite (numbered_nth E f s _ _ _ _ Hi) in Hw. injection Hw as <-. reflexivity.
  - rewrite numbered_index. assert (H : NoDup (sweep_order s (sweep_length E s))) by (apply sweep_order_NoDup; unfold sweep_length; lia).
    apply (NoDup_filter (has_due E f s)) in H. unfold swept, firstN. rewrite <- (firstn_skipn (N.to_nat (MAX_WITHDRAWALS_PER_PAYLOAD E)) (filter _ _)) in H. 
    clear - H. set (a := firstn _ _) in *. set (b := skipn _ _) in *. clearbody a b. induction a as [|x a IH]; [constructor|]. cbn [app] in H. inversion H; subst. constructor; [|auto].
    intros Hx. apply H2. apply in_or_app. left. exact Hx.
  - intros w Hw. apply In_nthN in Hw as (k & Hk). pose proof (nthN_some _ _ _ Hk) as Hl. rewrite numbered_len in Hl. destruct (nthN_lt _ _ Hl) as [i Hi].
    rewrite (numbered_nth E f s _ _ _ _ Hi) in Hk. injection Hk as <-. cbn [w_validator_index w_amount w_address]. split; [|reflexivity].
    apply nthN_In in Hi. apply swept_in in Hi as [_ Hi]. unfold has_due in Hi. destruct (due_at E f s i); [reflexivity|discriminate].
Qed.
(** who is due: everything for a withdrawable validator, the excess for a full one above the cap, nothing otherwise *)
Theorem C42_due : forall (E : Env) (f : Fork) (s : BeaconState) (v : Validator) (b a : N),
  sweep_due E f s v b = Some a <->
  (kind_is 1 v = true \/ (f = Electra /\ kind_is 2 v = true))
  /\ ((v_withdrawable_epoch v <= epoch_of E s /\ 0 < b /\ a = b)
      \/ (~ (v_withdrawable_epoch v <= epoch_of E s /\ 0 < b) /\ v_effective_balance v = balance_cap E f v /\ balance_cap E f v < b /\ a = b - balance_cap E f v)).
Proof.
  intros E f s v b a. unfold sweep_due. cbv zeta.
  assert (Ha : kind_is 1 v || match f with Electra => kind_is 2 v | _ => false end = true <-> kind_is 1 v = true \/ (f = Electra /\ kind_is 2 v = true)).
  { rewrite orb_true_iff. destruct f; split; intros [H|H]; auto; try discriminate; try (destruct H as [H _]; discriminate). right. apply H. }
  destruct (kind_is 1 v || _) eqn:Haddr; cbn [andb].
  - assert (Hok : kind_is 1 v = true \/ (f = Electra /\ kind_is 2 v = true)) by (apply Ha; reflexivity).
    set (cap := balance_cap E f v). destruct (N.leb_spec (v_withdrawable_epoch v) (epoch_of E s)); cbn [andb].
    + destruct (N.ltb_spec 0 b); cbn [andb].
      * split; [intros [= <-]; split; [exact Hok|left; lia]|]. intros [_ [(_ & _ & ->)|(Hn & _)]]; [reflexivity|]. exfalso. apply Hn. lia.
      * destruct (N.ltb_spec cap b); [lia|]. rewrite andb_false_r. split; [discriminate|]. intros [_ [(_ & Hx & _)|(_ & _ & Hx & _)]]; lia.
    + destruct (N.eqb_spec (v_effective_balance v) cap) as [He|He]; cbn [andb].
      * destruct (N.ltb_spec cap b).
        -- split; [intros [= <-]; split; [exact Hok|right; lia]|]. intros [_ [(Hx & _)|(_ & _ & _ & ->)]]; [lia|reflexivity].
        -- split; [discriminate|]. intros [_ [(Hx & _)|(_ & _ & Hx & _)]]; lia.
      * split; [discriminate|]. intros [_ [(Hx & _)|(_ & Hx & _)]]; [lia|contradiction].
  - split; [discriminate|]. intros [Hx _]. apply Ha in Hx. discriminate.
Qed.

(** ** C43: processing the withdrawals of a payload *)
Theorem C43_process : forall (E : Env) (f : Fork) (p : ExecutionPayload) (s : BeaconState),
  ctx_sane E -> (f = Electra -> pending_partial_withdrawals s = [] /\ lenN (expected_withdrawals E f s) < MAX_WITHDRAWALS_PER_PAYLOAD E) ->
  sweep_ready s -> withdrawal_limits E ->
  (ep_withdrawals p = expected_withdrawals E f s ->
     process_withdrawals E f p s = (Ok tt,
       set_next_withdrawal_validator_index (next_sweep_start E s (expected_withdrawals E f s))
         (set_next_withdrawal_index (next_withdrawal_index s + lenN (expected_withdrawals E f s))
           (set_balances (after_withdrawals (expected_withdrawals E f s) (balances s)) s))))
  /\ (ep_withdrawals p <> expected_withdrawals E f s -> rejected (process_withdrawals E f p) s).
Proof.
  intros E f p s Hc He Hr Hl. apply withdrawals_run; try assumption.
  - intros Hf. apply (He Hf).
  - intros Hf. apply (He Hf).
Qed.
(** the sweep examines a run of [m] validators from the pointer, serves exactly the due ones among them,
    and the next sweep starts right after them unless the whole registry has been examined *)
Theorem C43_nobody_skipped : forall (E : Env) (f : Fork) (s : BeaconState), withdrawal_limits E ->
  exists m, m <= lenN (validators s)
    /\ (forall i, In i (map w_validator_index (expected_withdrawals E f s)) <->
          exists k, k < m /\ i = (next_withdrawal_validator_index s + k) mod lenN (validators s) /\ due_at E f s i <> None)
    /\ (m = lenN (validators s) \/ next_sweep_start E s (expected_withdrawals E f s) = (next_withdrawal_validator_index s + m) mod lenN (validators s)).
Proof.
  intros E f s [HM _]. destruct (no_skip E f s (proj1 HM)) as (m & H1 & H2 & H3). exists m. split; [unfold sweep_length in H1; lia|]. split; [|exact H3].
  intros i. unfold expected_withdrawals. rewrite numbered_index, H2.
  split; intros (k & A & B & C); exists k; (split; [exact A|]); (split; [exact B|]); unfold has_due in *; destruct (due_at E f s i); try congruence; try discriminate.
Qed.
Lemma limits_networks : withdrawal_limits ctx_mainnet /\ withdrawal_limits ctx_minimal /\ withdrawal_limits ctx_goerli /\ withdrawal_limits ctx_sepolia
  /\ withdrawal_limits ctx_holesky /\ withdrawal_limits ctx_hoodi /\ withdrawal_limits tiny.
Proof. repeat split; vm_compute; congruence. Qed.
(** eight validators with addresses; 1 is withdrawable, 2, 4 and 5 are above the cap; the sweep starts at 7 *)
Definition sweep_toy : BeaconState :=
  let V := fun i eff wd => mkValidator (toy_pk i) (1 :: repeat i 31) eff false 0 0 FAR_FUTURE_EPOCH wd in
  let M := 32000000000 in let F := FAR_FUTURE_EPOCH in
  set_validators [V 0 M F; V 1 M 2; V 2 M F; V 3 M F; V 4 M F; V 5 M F; V 6 M F; V 7 M F]
  (set_balances [M; 5; M + 2; M; M + 4; M + 5; M; M] (set_next_withdrawal_validator_index 7 (set_next_withdrawal_index 100 (tiny_state 8 13)))).
Example C43_toy : ctx_sane tiny /\ sweep_ready sweep_toy /\ withdrawal_limits tiny
  /\ map (fun w => (w_index w, w_validator_index w, w_amount w)) (expected_withdrawals tiny Capella sweep_toy)
     = firstN (MAX_WITHDRAWALS_PER_PAYLOAD tiny) [(100, 1, 5); (101, 2, 2); (102, 4, 4); (103, 5, 5)]
  /\ let '(r, s') := process_withdrawals tiny Capella (mkPayload [] [] [] [] [] [] 0 0 0 0 [] 0 [] [] (expected_withdrawals tiny Capella sweep_toy) 0 0 [] []) sweep_toy in
     is_ok r = true /\ next_withdrawal_validator_index s' = next_sweep_start tiny sweep_toy (expected_withdrawals tiny Capella sweep_toy).
Proof.
  split; [exact tiny_sane|]. split; [repeat split; vm_compute; congruence|]. split; [apply limits_networks|]. split; [vm_compute; reflexivity|]. vm_compute. auto.
Qed.
(** electra: when the payload is full the pointer is computed from the withdrawal index, not the validator index (electra/block_processing.rs 209-210) *)
Theorem C43_electra_pointer_refuted : exists (s s' : BeaconState) (p : ExecutionPayload),
  pending_partial_withdrawals s = [] /\ sweep_ready s /\ ep_withdrawals p = expected_withdrawals tiny Electra s
  /\ process_withdrawals tiny Electra p s = (Ok tt, s')
  /\ next_withdrawal_validator_index s' <> next_sweep_start tiny s (expected_withdrawals tiny Electra s).
Proof.
  set (p := mkPayload [] [] [] [] [] [] 0 0 0 0 [] 0 [] [] (expected_withdrawals tiny Electra sweep_toy) 0 0 [] []).
  exists sweep_toy, (snd (process_withdrawals tiny Electra p sweep_toy)), p. split; [reflexivity|]. split; [repeat split; vm_compute; congruence|]. split; [reflexivity|]. split.
  - apply ran. vm_compute. reflexivity.
  - vm_compute. discriminate.
Qed.

(** ** C54: queued partial withdrawals *)
(** the code debits the validator the sweep points at (electra/block_processing.rs 92-97) *)
Definition partial_toy (q : list PendingPartialWithdrawal) : BeaconState :=
  set_pending_partial_withdrawals q
    (set_validators (map (fun v => set_v_effective_balance 40000000000 (set_v_withdrawal_credentials (2 :: repeat 9 31) v)) (validators (tiny_state 4 13)))
      (set_balances [40000000000; 41000000000; 42000000000; 40000000000] (tiny_state 4 13))).
Theorem C54_debits_other_validator_refuted : exists (s s' : BeaconState) (p : ExecutionPayload) (q : PendingPartialWithdrawal),
  pending_partial_withdrawals s = [q] /\ ppw_withdrawable_epoch q <= epoch_of tiny s
  /\ process_withdrawals tiny Electra p s = (Ok tt, s')
  /\ nthN (balances s') (ppw_index q) = nthN (balances s) (ppw_index q) /\ nthN (balances s') 0 <> nthN (balances s) 0 /\ ppw_index q <> 0.
Proof.
  set (q := mkPPW 2 1000000000 3). set (s := partial_toy [q]).
  set (p := mkPayload [] [] [] [] [] [] 0 0 0 0 [] 0 [] [] (match get_expected_withdrawals tiny Electra s with Ok e => fst e | _ => [] end) 0 0 [] []).
  exists s, (snd (process_withdrawals tiny Electra p s)), p, q. split; [reflexivity|]. split; [vm_compute; discriminate|]. split.
  - apply ran. vm_compute. reflexivity.
  - split; [vm_compute; reflexivity|]. split; [vm_compute; discriminate|]. vm_compute. discriminate.
Qed.
(** an entry that is passed over is not counted, so the entry served stays queued and is served again (line 202) *)
Theorem C54_served_entry_stays_refuted : exists (s s' : BeaconState) (p : ExecutionPayload) (skipped q : PendingPartialWithdrawal),
  pending_partial_withdrawals s = [skipped; q] /\ lenN (ep_withdrawals p) = 1
  /\ process_withdrawals tiny Electra p s = (Ok tt, s') /\ pending_partial_withdrawals s' = [q].
Proof.
  set (k := mkPPW 3 1000000000 3). set (q := mkPPW 2 1000000000 3).
  set (s := set_validators (updN (validators (partial_toy [])) 3 (set_v_exit_epoch 9 (toy_validator 3))) (partial_toy [k; q])).
  set (p := mkPayload [] [] [] [] [] [] 0 0 0 0 [] 0 [] [] (match get_expected_withdrawals tiny Electra s with Ok e => fst e | _ => [] end) 0 0 [] []).
  exists s, (snd (process_withdrawals tiny Electra p s)), p, k, q. split; [reflexivity|]. split; [vm_compute; reflexivity|]. split.
  - apply ran. vm_compute. reflexivity.
  - vm_compute. reflexivity.
Qed.

(** ** C71: deposit proofs *)
(** a deposit is checked with its data root as leaf, depth 33, the next deposit index and the recorded deposit root *)
Theorem C71_deposit_arguments : forall (E : Env) (f : Fork) (d : Deposit) (s s' : BeaconState), eth1_deposit_index s + 1 < 2 ^ 64 ->
  process_deposit E f d s = (Ok tt, s') ->
  exists leaf, htr E (ODepositData (dep_data d)) = Some leaf
    /\ merkle_branch_ok E leaf (dep_proof d) 33 (eth1_deposit_index s) (e1_deposit_root (eth1_data s)) = true.
Proof.
  intros E f d s s' Hi H. destruct (deposit_guard E f d s Hi) as [_ G]. unfold rejected in G. rewrite H in G. cbn [fst is_ok] in G.
  assert (Hd : {x | htr E (ODepositData (dep_data d)) = Some x} + {htr E (ODepositData (dep_data d)) = None}) by (destruct (htr E _); eauto).
  destruct Hd as [[leaf Hl]|Hn].
  - exists leaf. split; [exact Hl|]. destruct (merkle_branch_ok E leaf _ _ _ _) eqn:Hm; [reflexivity|]. exfalso. destruct G as [G _]; [|discriminate].
    intros (l & H1 & H2). congruence.
  - exfalso. destruct G as [G _]; [|discriminate]. intros (l & H1 & _). congruence.
Qed.
(** when the external check is the usual branch computation, two different deposits accepted for the same index expose a hash collision *)
Lemma branch_root_len H value branch index : (forall b, lenN (H b) = 32) -> lenN value = 32 -> lenN (branch_root H value branch index) = 32.
Proof. intros Hw. revert value index; induction branch as [|b t IH]; intros value index Hv; cbn [branch_root]; [exact Hv|]. apply IH. destruct (N.odd index); apply Hw. Qed.
Lemma branch_collision H : (forall b, lenN (H b) = 32) -> forall br1 br2 v1 v2 index, lenN br1 = lenN br2 -> lenN v1 = 32 -> lenN v2 = 32 ->
  (forall b, In b br1 -> lenN b = 32) -> (forall b, In b br2 -> lenN b = 32) -> v1 <> v2 -> branch_root H v1 br1 index = branch_root H v2 br2 index ->
  exists x y, collision H x y.
Proof.
  intros Hw. induction br1 as [|b1 t1 IH]; intros [|b2 t2] v1 v2 index Hl L1 L2 B1 B2 Hne Heq; try (exfalso; clear - Hl; unfold lenN in Hl; cbn [length] in Hl; lia).
  - exfalso. apply Hne. exact Heq.
  - cbn [branch_root] in Heq. rewrite !lenN_cons in Hl.
    set (x := if N.odd index then b1 ++ v1 else v1 ++ b1). set (y := if N.odd index then b2 ++ v2 else v2 ++ b2).
    assert (Hb1 : lenN b1 = 32) by (apply B1; left; reflexivity). assert (Hb2 : lenN b2 = 32) by (apply B2; left; reflexivity).
    assert (Hxy : x <> y).
    { unfold x, y. intros Hx. apply Hne. destruct (N.odd index).
      - apply (f_equal (skipn 32)) in Hx. rewrite !skipn_app in Hx. replace (32 - length b1)%nat with 0%nat in Hx by (unfold lenN in Hb1; lia). replace (32 - length b2)%nat with 0%nat in Hx by (unfold lenN in Hb2; lia).
        rewrite (skipn_all2 b1), (skipn_all2 b2) in Hx by (unfold lenN in *; lia). exact Hx.
      - apply (f_equal (firstn 32)) in Hx. rewrite !firstn_app in Hx. replace (32 - length v1)%nat with 0%nat in Hx by (unfold lenN in L1; lia). replace (32 - length v2)%nat with 0%nat in Hx by (unfold lenN in L2; lia).
        rewrite !firstn_O, !app_nil_r in Hx. rewrite (firstn_all2 v1), (firstn_all2 v2) in Hx by (unfold lenN in *; lia). exact Hx. }
    destruct (list_eq_dec N.eq_dec (H x) (H y)) as [Hc|Hc].
    + exists x, y. split; [|split; [|split; [exact Hxy|exact Hc]]]; unfold x, y; destruct (N.odd index); rewrite lenN_app; lia.
    + apply (IH t2 (H x) (H y) (index / 2)); try apply Hw; try lia; try assumption.
      * intros b Hb. apply B1. right. exact Hb.
      * intros b Hb. apply B2. right. exact Hb.
      * unfold x, y. destruct (N.odd index); exact Heq.
Qed.
Theorem C71_one_leaf_per_index : forall (E : Env) (s : BeaconState) (d1 d2 : Deposit) (leaf1 leaf2 : Root),
  (forall b, lenN (hash E b) = 32) ->
  (forall leaf branch depth index root, merkle_branch_ok E leaf branch depth index root = true ->
     lenN branch = depth /\ (forall b, In b branch -> lenN b = 32) /\ lenN leaf = 32 /\ branch_root (hash E) leaf branch index = root) ->
  htr E (ODepositData (dep_data d1)) = Some leaf1 -> htr E (ODepositData (dep_data d2)) = Some leaf2 ->
  deposit_proven E s d1 -> deposit_proven E s d2 -> leaf1 <> leaf2 -> exists x y, collision (hash E) x y.
Proof.
  intros E s d1 d2 leaf1 leaf2 Hw Hm H1 H2 (l1 & A1 & A2) (l2 & B1 & B2) Hne. assert (l1 = leaf1) by congruence. assert (l2 = leaf2) by congruence. subst l1 l2.
  apply Hm in A2 as (L1 & N1 & V1 & R1). apply Hm in B2 as (L2 & N2 & V2 & R2).
  apply (branch_collision (hash E) Hw (dep_proof d1) (dep_proof d2) leaf1 leaf2 (eth1_deposit_index s)); try assumption; [exact (eq_trans L1 (eq_sym L2))|exact (eq_trans R1 (eq_sym R2))].
Qed.
(** an environment with the usual branch computation, and a deposit proven in it *)
Definition fold_orc : Oracles := {|
  hash := toy_hash; htr := toy_htr; bls_verify := bls_verify toy_orc; fast_aggregate_verify_ok := fast_aggregate_verify_ok toy_orc; aggregate_pks := aggregate_pks toy_orc;
  merkle_branch_ok := fun leaf branch depth index root =>
    (lenN branch =? depth) && forallb (fun b => lenN b =? 32) branch && (lenN leaf =? 32) && bytes_eqb (branch_root toy_hash leaf branch index) root;
  engine_ok := engine_ok toy_orc |}.
Definition fold_env : Env := mkEnv ctx_tiny fold_orc true false 100%nat.
Example C71_toy : (forall b, lenN (hash fold_env b) = 32)
  /\ (forall leaf branch depth index root, merkle_branch_ok fold_env leaf branch depth index root = true ->
     lenN branch = depth /\ (forall b, In b branch -> lenN b = 32) /\ lenN leaf = 32 /\ branch_root (hash fold_env) leaf branch index = root)
  /\ let d := toy_deposit 1 5 true (repeat zero32 33) in
     let leaf := match toy_htr (ODepositData (dep_data d)) with Some r => r | None => [] end in
     deposit_proven fold_env (set_eth1_data (mkEth1 (branch_root toy_hash leaf (repeat zero32 33) 3) 4 zero32) (tiny_state 3 13)) d.
Proof.
  split; [intros b; cbn [fold_env orc hash fold_orc]; unfold toy_hash, lenN; rewrite map_length; reflexivity|]. split.
  - intros leaf branch depth index root H. cbn [fold_env orc merkle_branch_ok fold_orc] in H. repeat (apply andb_true_iff in H as [H ?]).
    split; [apply N.eqb_eq; assumption|]. split; [|split; [apply N.eqb_eq; assumption|apply bytes_eqb_iff; assumption]].
    intros b Hb. rewrite forallb_forall in H2. apply N.eqb_eq. apply H2. exact Hb.
  - cbv zeta. exists (match toy_htr (ODepositData (dep_data (toy_deposit 1 5 true (repeat zero32 33)))) with Some r => r | None => [] end). split; vm_compute; reflexivity.
Qed.

Print Assumptions C27_deposit.
Print Assumptions C27_cases.
Print Assumptions C27_electra_topup_refuted.
Print Assumptions C27_electra_invalid_signature_refuted.
Print Assumptions C36_sync_aggregate.
Print Assumptions C42_sweep.
Print Assumptions C42_list.
Print Assumptions C42_due.
Print Assumptions C43_process.
Print Assumptions C43_nobody_skipped.
Print Assumptions C43_electra_pointer_refuted.
Print Assumptions C54_debits_other_validator_refuted.
Print Assumptions C54_served_entry_stays_refuted.
Print Assumptions C71_deposit_arguments.
Print Assumptions C71_one_leaf_per_index.
