(** * Property theorems: slashings, exits, electra exit churn (C12-C15, C37, C48) *)
From Verif Require Import Base BaseLemmas Types Ctx Env Helpers HelpersAltair HelpersElectra Block StLemmas
  SpecCommon SpecHelpers SpecOps SpecElectra HelperProofs HelperProofs2 OpsProofs ElectraProofs SlashProofs Presets Toy ToyCtx Toy2 Toy3.
From Coq Require Import Sorted.

(** every shipped network satisfies the electra side conditions, too *)
Lemma ctx_sane_electra_networks : ctx_sane_electra ctx_mainnet /\ ctx_sane_electra ctx_minimal /\ ctx_sane_electra ctx_goerli
  /\ ctx_sane_electra ctx_sepolia /\ ctx_sane_electra ctx_holesky /\ ctx_sane_electra ctx_hoodi.
Proof. unfold ctx_sane_electra. vm_compute. repeat split; congruence. Qed.

(** ** C12: effect of slashing *)
(** Without a named whistleblower, the only way the library calls it, the proposer receives the whole reward.  The exit itself
    is the subject of C10 and C48. *)
Theorem C12_slashing_effect : forall (E : Env) (f : Fork) (s : BeaconState) (i p : N) (v : Validator),
  ctx_sane E -> ctx_sane_electra E -> slashing_quotients_pos E f -> state_shape E s -> slot_small s -> exit_room E f s ->
  amounts_small s -> effective_bounded s -> lenN (balances s) = lenN (validators s) ->
  nthN (validators s) i = Some v -> get_beacon_proposer_index E s = Ok p -> p < lenN (validators s) ->
  exists s1 v1, initiate_exit E f i s = (Ok tt, s1) /\ nthN (validators s1) i = Some v1
    /\ slash_validator E f i None s =
       (Ok tt,
        set_balances (credit p (v_effective_balance v / reward_quotient E f)
                        (debit i (v_effective_balance v / penalty_quotient E f) (balances s)))
        (set_slashings (credit (epoch_of E s mod EPOCHS_PER_SLASHINGS_VECTOR E) (v_effective_balance v) (slashings s))
        (set_validators (updN (validators s1) i
           (set_v_slashed true
              (set_v_withdrawable_epoch (N.max (v_withdrawable_epoch v1) (epoch_of E s + EPOCHS_PER_SLASHINGS_VECTOR E)) v1))) s1))).
Proof.
  intros E f s i p v Hc He Hq Hsh Hs Hr Ha Heb Hlen Hv Hp Hpl.
  assert (Hev : v_effective_balance v < 2 ^ 62) by (specialize (Heb v (nthN_In _ _ _ Hv)); pows; lia).
  destruct Hsh as (_ & _ & _ & Hsl & _). assert (Hi : i < lenN (balances s)) by (rewrite Hlen; eapply nthN_some; eauto).
  destruct (slash_run E Hc He f s i v p None Hs Hr Hv Hq Ha Hev Hsl Hi Hp ltac:(rewrite Hlen; exact Hpl) I) as (s1 & v1 & H1 & H2 & H3).
  exists s1, v1. split; [exact H1|]. split; [exact H2|]. rewrite H3. f_equal. f_equal.
  rewrite credit_credit. f_equal. pose proof (reward_share_le E f (v_effective_balance v / reward_quotient E f) ltac:(apply Hq)). lia.
Qed.
(** with a named whistleblower in phase0, the reward is shared *)
Theorem C12_slashing_shares_phase0 : forall (E : Env) (s : BeaconState) (i p w : N) (v : Validator),
  ctx_sane E -> ctx_sane_electra E -> slashing_quotients_pos E Phase0 -> state_shape E s -> slot_small s -> exit_room E Phase0 s ->
  amounts_small s -> effective_bounded s -> lenN (balances s) = lenN (validators s) ->
  nthN (validators s) i = Some v -> get_beacon_proposer_index E s = Ok p -> p < lenN (validators s) -> w < lenN (validators s) ->
  let reward := v_effective_balance v / WHISTLEBLOWER_REWARD_QUOTIENT E in
  let share := reward / PROPOSER_REWARD_QUOTIENT E in
  exists s', slash_validator E Phase0 i (Some w) s = (Ok tt, s')
    /\ balances s' = credit w (reward - share) (credit p share (debit i (v_effective_balance v / MIN_SLASHING_PENALTY_QUOTIENT E) (balances s))).
Proof.
  intros E s i p w v Hc He Hq Hsh Hs Hr Ha Heb Hlen Hv Hp Hpl Hwl reward share.
  assert (Hev : v_effective_balance v < 2 ^ 62) by (specialize (Heb v (nthN_In _ _ _ Hv)); pows; lia).
  destruct Hsh as (_ & _ & _ & Hsl & _). assert (Hi : i < lenN (balances s)) by (rewrite Hlen; eapply nthN_some; eauto).
  destruct (slash_run E Hc He Phase0 s i v p (Some w) Hs Hr Hv Hq Ha Hev Hsl Hi Hp ltac:(rewrite Hlen; exact Hpl) ltac:(rewrite Hlen; exact Hwl)) as (s1 & v1 & H1 & H2 & H3).
  eexists. split; [exact H3|]. gs. reflexivity.
Qed.
Example C12_example : exists p, ctx_sane tiny /\ ctx_sane_electra tiny /\ state_shape tiny slash_toy /\ slot_small slash_toy
  /\ exit_room tiny Altair slash_toy /\ exit_room tiny Electra slash_toy
  /\ get_beacon_proposer_index tiny slash_toy = Ok p
  /\ balances (snd (slash_validator tiny Altair (1 - p) None slash_toy)) = credit p 62500000 (debit (1 - p) 500000000 (balances slash_toy))
  /\ map v_withdrawable_epoch (validators (snd (slash_validator tiny Altair 2 None slash_toy))) = [FAR_FUTURE_EPOCH; FAR_FUTURE_EPOCH; 264; FAR_FUTURE_EPOCH].
Proof.
  eexists. split; [exact tiny_sane|]. split; [exact tiny_sane_electra|]. split; [apply tiny_shape; vm_compute; discriminate|].
  split; [vm_compute; reflexivity|]. split; [exact (proj2 (proj2 slash_toy_amounts))|].
  split; [vm_compute; repeat split|]. split; [vm_compute; reflexivity|]. split; vm_compute; reflexivity.
Qed.

(** ** C37: proposer share from altair on *)
(** The protocol pays [reward * PROPOSER_WEIGHT / WEIGHT_DENOMINATOR] to the proposer and the rest to the whistleblower.  What the
    code does from altair on, for every whistleblower and proposer: the proposer share is 0. *)
Theorem C37_share_is_zero_partial : forall (E : Env) (f : Fork) (s : BeaconState) (i p w : N) (v : Validator),
  f <> Phase0 -> ctx_sane E -> ctx_sane_electra E -> slashing_quotients_pos E f -> state_shape E s -> slot_small s -> exit_room E f s ->
  amounts_small s -> effective_bounded s -> lenN (balances s) = lenN (validators s) ->
  nthN (validators s) i = Some v -> get_beacon_proposer_index E s = Ok p -> p < lenN (validators s) -> w < lenN (validators s) ->
  exists s', slash_validator E f i (Some w) s = (Ok tt, s')
    /\ balances s' = credit w (v_effective_balance v / reward_quotient E f) (debit i (v_effective_balance v / penalty_quotient E f) (balances s)).
Proof.
  intros E f s i p w v Hf Hc He Hq Hsh Hs Hr Ha Heb Hlen Hv Hp Hpl Hwl.
  assert (Hev : v_effective_balance v < 2 ^ 62) by (specialize (Heb v (nthN_In _ _ _ Hv)); pows; lia).
  destruct Hsh as (_ & _ & _ & Hsl & _). assert (Hi : i < lenN (balances s)) by (rewrite Hlen; eapply nthN_some; eauto).
  destruct (slash_run E Hc He f s i v p (Some w) Hs Hr Hv Hq Ha Hev Hsl Hi Hp ltac:(rewrite Hlen; exact Hpl) ltac:(rewrite Hlen; exact Hwl)) as (s1 & v1 & H1 & H2 & H3).
  eexists. split; [exact H3|]. gs. replace (reward_share E f _) with 0 by (destruct f; congruence || reflexivity). rewrite credit_0, N.sub_0_r. reflexivity.
Qed.
Theorem C37_proposer_share_refuted : exists (E : Env) (s s' : BeaconState) (i p w : N) (v : Validator),
  ctx_sane E /\ state_shape E s /\ nthN (validators s) i = Some v /\ get_beacon_proposer_index E s = Ok p /\ p <> w /\ p <> i /\ w <> i
  /\ slash_validator E Altair i (Some w) s = (Ok tt, s')
  /\ 1 <= v_effective_balance v / WHISTLEBLOWER_REWARD_QUOTIENT E * PROPOSER_WEIGHT / WEIGHT_DENOMINATOR
  /\ nthN (balances s') p = nthN (balances s) p.
Proof.
  exists tiny, slash_toy, (snd (slash_validator tiny Altair 3 (Some 2) slash_toy)), 3, 1, 2. eexists. split; [exact tiny_sane|]. split; [apply tiny_shape; vm_compute; discriminate|].
  split; [vm_compute; reflexivity|]. split; [vm_compute; reflexivity|]. split; [discriminate|]. split; [discriminate|]. split; [discriminate|].
  split; [vm_compute; reflexivity|]. split; [vm_compute; discriminate|]. vm_compute. reflexivity.
Qed.

(** ** C13: attester slashing *)
Theorem C13_attester_slashing : forall (E : Env) (f : Fork) (s : BeaconState) (op : AttesterSlashing),
  ctx_sane E ->
  (~ attester_slashing_proven E s op -> rejected (process_attester_slashing E f op) s)
  /\ (attester_slashing_proven E s op ->
      exists l, StronglySorted N.lt l /\ (forall i, In i l <-> culpable E s op i)
        /\ (l = [] -> rejected (process_attester_slashing E f op) s)
        /\ (l <> [] -> process_attester_slashing E f op s = sfor l (fun i => slash_validator E f i None) s)).
Proof.
  intros E f s op Hc. split.
  - intros Hn. apply guard_rejects. apply not_ok. intros l Hl. apply attester_checks_iff in Hl as [Hl _]. contradiction.
  - intros Hp. set (l := filter (slashable_ix E s) (sorted_intersection (ia_attesting_indices (as_1 op)) (ia_attesting_indices (as_2 op)))).
    assert (Hl1 : StronglySorted N.lt l) by (apply filter_sorted, sorted_sorted_intersection).
    assert (Hl2 : forall i, In i l <-> culpable E s op i) by (intros i; apply culpable_filter; exact Hp).
    exists l. split; [exact Hl1|]. split; [exact Hl2|]. pose proof (attester_slashing_run E Hc f op s l Hp Hl1 Hl2) as Hr. split.
    + intros Hnil. rewrite Hnil in Hr. unfold rejected. rewrite Hr. split; reflexivity.
    + intros Hne. rewrite Hr. destruct l as [|i l']; [contradiction|]. cbn [require]. unfold sbind at 1. destruct (sfor _ _ s) as [[[]| | |] s1]; reflexivity.
Qed.
(** after success exactly the culpable validators are slashed and no other record has changed *)
Theorem C13_exactly_the_culpable : forall (E : Env) (f : Fork) (s s' : BeaconState) (op : AttesterSlashing),
  ctx_sane E -> process_attester_slashing E f op s = (Ok tt, s') ->
  (exists i, culpable E s op i) /\ lenN (validators s') = lenN (validators s)
  /\ forall i v v', nthN (validators s) i = Some v -> nthN (validators s') i = Some v' ->
       (culpable E s op i -> v_slashed v' = true) /\ (~ culpable E s op i -> v' = v).
Proof.
  intros E f s s' op Hc H. destruct (C13_attester_slashing E f s op Hc) as [H1 H2].
  assert (Hp : attester_slashing_proven E s op).
  { unfold process_attester_slashing in H. apply sbind_ok_inv in H as (l & s1 & Hl & _). apply inv_rd in Hl as [Hl _]. apply attester_checks_iff in Hl. apply Hl. }
  destruct (H2 Hp) as (l & L1 & L2 & L3 & L4). destruct l as [|i0 l].
  { exfalso. destruct (L3 eq_refl) as [Hr _]. rewrite H in Hr. discriminate. }
  split; [exists i0; apply L2; left; reflexivity|]. rewrite L4 in H by discriminate.
  destruct (slash_all E f _ s s' (StronglySorted_NoDup _ L1) H) as [A1 A2]. split; [exact A1|].
  intros i v v' Hv Hv'. destruct (A2 i v v' Hv Hv') as [B1 B2]. rewrite L2 in B1, B2. split; assumption.
Qed.
Definition toy_indexed (s : BeaconState) (l : list N) (root : Root) : IndexedAttestation :=
  let d := mkAttData 9 0 root zero_cp (mkCheckpoint 2 root) in
  mkIndexed l d (match get_domain tiny s DBeaconAttester (Some 2) with
                 | Ok dom => toy_sign (concat (map toy_pk l)) (tiny_signing_root dom (OAttestationData d)) | _ => [] end).
Definition toy_attester_slashing : AttesterSlashing :=
  mkASlash (toy_indexed slash_toy [0; 1; 3] (repeat 1 32)) (toy_indexed slash_toy [1; 2; 3] (repeat 2 32)).
Example C13_example : ctx_sane tiny
  /\ fst (process_attester_slashing tiny Deneb toy_attester_slashing slash_toy) = Ok tt
  /\ map v_slashed (validators (snd (process_attester_slashing tiny Deneb toy_attester_slashing slash_toy))) = [false; true; false; true].
Proof. split; [exact tiny_sane|]. split; vm_compute; reflexivity. Qed.

(** ** C14: proposer slashing *)
Theorem C14_proposer_slashing : forall (E : Env) (f : Fork) (s : BeaconState) (op : ProposerSlashing),
  ctx_sane E ->
  (proposer_slashing_valid E s op ->
     process_proposer_slashing E f op s = slash_validator E f (bh_proposer_index (sbh_message (ps_1 op))) None s)
  /\ (~ proposer_slashing_valid E s op -> rejected (process_proposer_slashing E f op) s).
Proof.
  intros E f s op Hc. split.
  - intros Hv. unfold process_proposer_slashing.
    rewrite (run_rd _ _ _ (bh_proposer_index (sbh_message (ps_1 op)))) by (apply proposer_slashing_checks_iff; auto). reflexivity.
  - intros Hv. apply guard_rejects, not_ok. intros i Hi. apply proposer_slashing_checks_iff in Hi as [Hi _]; auto.
Qed.
Definition toy_header_vote (i : N) (root : Root) : SignedBeaconBlockHeader :=
  let h := mkHeader 9 i root root root in mkSignedHeader h (tiny_signature slash_toy DBeaconProposer 2 (OHeader h) i).
Definition toy_proposer_slashing (i : N) : ProposerSlashing := mkPSlash (toy_header_vote i (repeat 1 32)) (toy_header_vote i (repeat 2 32)).
Example C14_example : ctx_sane tiny
  /\ fst (process_proposer_slashing tiny Capella (toy_proposer_slashing 2) slash_toy) = Ok tt
  /\ map v_slashed (validators (snd (process_proposer_slashing tiny Capella (toy_proposer_slashing 2) slash_toy))) = [false; false; true; false]
  /\ is_ok (fst (process_proposer_slashing tiny Capella (toy_proposer_slashing 2)
                  (snd (process_proposer_slashing tiny Capella (toy_proposer_slashing 2) slash_toy)))) = false.
Proof. split; [exact tiny_sane|]. split; [|split]; vm_compute; reflexivity. Qed.

(** ** C15: voluntary exits *)
(** Acceptance and effect as coded.  [voluntary_exit_valid] has the service-time clause the code has, which is not the protocol's. *)
Theorem C15_voluntary_exit_partial : forall (E : Env) (f : Fork) (s : BeaconState) (op : SignedVoluntaryExit),
  ctx_sane E ->
  (forall v, nthN (validators s) (ve_validator_index (sve_message op)) = Some v ->
     v_activation_eligibility_epoch v + SHARD_COMMITTEE_PERIOD E < 2 ^ 64) ->
  (f = Electra -> pending_balance_of s (ve_validator_index (sve_message op)) < 2 ^ 64) ->
  (voluntary_exit_valid E f s op -> process_voluntary_exit E f op s = initiate_exit E f (ve_validator_index (sve_message op)) s)
  /\ (~ voluntary_exit_valid E f s op -> rejected (process_voluntary_exit E f op) s).
Proof.
  intros E f s op Hc Ho Hp. split.
  - intros Hv. unfold process_voluntary_exit.
    rewrite (run_rd _ _ _ (ve_validator_index (sve_message op))) by (apply voluntary_exit_checks_iff; auto). reflexivity.
  - intros Hv. apply guard_rejects, not_ok. intros i Hi. apply voluntary_exit_checks_iff in Hi as [Hi _]; auto.
Qed.
(** the service time of the protocol holds whenever the validator waited in the activation queue for less than it has served beyond the
    period; in general it does not: *)
Definition early_toy : BeaconState :=
  let s := tiny_state 4 13 in
  set_validators (updN (validators s) 2 (set_v_activation_epoch 3 (toy_validator 2))) s.
Definition toy_exit (f : Fork) (s : BeaconState) (i : N) : SignedVoluntaryExit :=
  let e := mkExit 3 i in
  mkSignedExit e (match (if fork_le Deneb f then compute_domain tiny DVoluntaryExit (Some (CAPELLA_FORK_VERSION tiny)) (Some (genesis_validators_root s))
                         else get_domain tiny s DVoluntaryExit (Some 3)) with
                  | Ok dom => toy_sign (toy_pk i) (tiny_signing_root dom (OVoluntaryExit e)) | _ => [] end).
Theorem C15_service_time_refuted : forall (f : Fork), exists (E : Env) (s s' : BeaconState) (op : SignedVoluntaryExit) (v : Validator),
  ctx_sane E /\ state_shape E s /\ process_voluntary_exit E f op s = (Ok tt, s')
  /\ nthN (validators s) (ve_validator_index (sve_message op)) = Some v
  /\ epoch_of E s < v_activation_epoch v + SHARD_COMMITTEE_PERIOD E.
Proof.
  intros f. exists tiny, early_toy, (snd (process_voluntary_exit tiny f (toy_exit f early_toy 2) early_toy)), (toy_exit f early_toy 2),
    (set_v_activation_epoch 3 (toy_validator 2)).
  split; [exact tiny_sane|]. split; [vm_compute; repeat split; congruence|]. destruct f; (split; [vm_compute; reflexivity|]; split; vm_compute; reflexivity).
Qed.
Example C15_example : forall f, fst (process_voluntary_exit tiny f (toy_exit f slash_toy 2) slash_toy) = Ok tt.
Proof. intros []; vm_compute; reflexivity. Qed.

(** ** C48: balance churn of exits *)
(** One call: the exit gets the first epoch in which its balance still fits, given what earlier exits have taken. *)
Theorem C48_exit_epoch : forall (E : Env) (s : BeaconState) (bal : N),
  ctx_sane E -> ctx_sane_electra E -> slot_small s -> active_balance_fits E s ->
  exit_balance_to_consume s < 2 ^ 62 -> bal < 2 ^ 62 -> exit_queue_start E s < 2 ^ 62 ->
  exists q, compute_exit_epoch_and_update_churn E bal s =
      (Ok q, set_earliest_exit_epoch q (set_exit_balance_to_consume (exit_capacity E s q - bal) s))
    /\ exit_queue_start E s <= q /\ bal <= exit_capacity E s q
    /\ (forall e, exit_queue_start E s <= e -> bal <= exit_capacity E s e -> q <= e).
Proof.
  intros E s bal Hc He Hs Hf Hx Hb Hq. exists (exit_slot E s bal).
  split; [apply compute_exit_epoch_ok; try assumption; pows; lia|]. split; [apply exit_slot_ge|]. apply exit_capacity_slot; assumption.
Qed.
(** Any sequence of exits, with repetitions: up to every epoch, no more balance leaves than the churn allows until then. *)
Theorem C48_exit_churn : forall (E : Env) (s : BeaconState) (l : list N),
  ctx_sane E -> ctx_sane_electra E -> slot_small s -> exit_room E Electra s -> (forall i, In i l -> i < lenN (validators s)) ->
  exists s', sfor l (initiate_exit E Electra) s = (Ok tt, s')
    /\ lenN (validators s') = lenN (validators s)
    /\ (forall e, exit_queue_start E s <= e -> leaving (validators s) (validators s') e <= exit_capacity E s e)
    /\ (forall i v, In i l -> nthN (validators s') i = Some v -> v_exit_epoch v <> FAR_FUTURE_EPOCH)
    /\ (forall i v, nthN (validators s) i = Some v -> ~ In i l \/ v_exit_epoch v <> FAR_FUTURE_EPOCH -> nthN (validators s') i = Some v)
    /\ (forall i v v', nthN (validators s) i = Some v -> nthN (validators s') i = Some v' -> v_exit_epoch v = FAR_FUTURE_EPOCH ->
          v_exit_epoch v' <> FAR_FUTURE_EPOCH ->
          exit_queue_start E s <= v_exit_epoch v'
          /\ v' = set_v_withdrawable_epoch (v_exit_epoch v' + MIN_VALIDATOR_WITHDRAWABILITY_DELAY E) (set_v_exit_epoch (v_exit_epoch v') v)).
Proof.
  intros E s l Hc He Hs (Hf & Hx & Hq) Hin. destruct (exit_sequence_electra E Hc He l s Hs Hf Hx Hq Hin) as (vs & q & b & H1 & H2 & H3 & H4 & H5 & H6).
  eexists. split; [exact H1|]. gs. auto 10.
Qed.
Example C48_example : exit_room tiny Electra slash_toy /\ exit_churn tiny slash_toy = 64000000000 /\ exit_queue_start tiny slash_toy = 8
  /\ map v_exit_epoch (validators (snd (sfor [3; 0; 3; 1; 2] (initiate_exit tiny Electra) slash_toy))) = [8; 9; 9; 8].
Proof. split; [vm_compute; repeat split|]. split; [|split]; vm_compute; reflexivity. Qed.

Print Assumptions C12_slashing_effect.
Print Assumptions C12_slashing_shares_phase0.
Print Assumptions C37_share_is_zero_partial.
Print Assumptions C37_proposer_share_refuted.
Print Assumptions C13_attester_slashing.
Print Assumptions C13_exactly_the_culpable.
Print Assumptions C14_proposer_slashing.
Print Assumptions C15_voluntary_exit_partial.
Print Assumptions C15_service_time_refuted.
Print Assumptions C48_exit_epoch.
Print Assumptions C48_exit_churn.
