(** * Property theorems: epoch processing (C11, C29, C30, C31, C32, C34, C35, C46) *)
From Verif Require Import Base BaseLemmas Types Ctx Presets Env Helpers HelpersAltair HelpersElectra Block Epoch Transition Upgrade StLemmas
  SpecCommon SpecShuffle SpecHelpers SpecElectra SpecOps SpecBlock SpecAtt SpecFinality SpecSlots SpecEpoch SpecRegistry
  HelperProofs HelperProofs2 OpsProofs ElectraProofs AttProofs FinalityProofs EpochProofs RegistryProofs RewardProofs PeriodicProofs
  Toy ToyCtx Toy2 Toy3 PropsAtt.
From Coq Require Import Sorted.

(** ** C11 *)
Lemma room_of (E : Env) f s : ctx_sane E -> slot_small s -> state_shape E s -> registry_room E f s -> room E f (lenN (validators s)) s.
Proof.
  intros Hc Hs Hsh Hr. destruct (Fork_eq_dec f Electra) as [->|Hf]; [exact Hr|]. rewrite (room_not_electra _ _ _ _ Hf).
  assert (Hr' : exits_below s (2 ^ 61)) by (destruct f; try exact Hr; contradiction).
  exists (2 ^ 61). split; [exact Hr'|]. pose proof (epoch_small E Hc s Hs). destruct Hsh as (_&_&_&_&_&Hv). unfold earliest_exit. ctxs Hc. pows. lia.
Qed.
(** the whole registry step: nobody is forgotten, nobody else is touched *)
Theorem C11_registry : forall (E : Env) (f : Fork) (s : BeaconState),
  ctx_sane E -> ctx_sane_electra E -> slot_small s -> state_shape E s -> registry_room E f s -> cp_epoch (finalized_checkpoint s) <= epoch_of E s ->
  exists s' q, process_registry_updates E f s = (Ok tt, s') /\ is_activation_queue s q
    /\ lenN (validators s') = lenN (validators s)
    /\ (forall i v, nthN (validators s) i = Some v -> exists v', nthN (validators s') i = Some v' /\ registry_record E f s q i v v')
    /\ (exists x y, s' = set_validators (validators s') (set_earliest_exit_epoch x (set_exit_balance_to_consume y s))
          /\ (f <> Electra -> x = earliest_exit_epoch s /\ y = exit_balance_to_consume s)).
Proof.
  intros E f s Hc Hel Hs Hsh Hr Hfin. destruct (registry_run E Hc Hel f s Hs Hsh (room_of E f s Hc Hs Hsh Hr) Hfin) as (s' & q & H1 & H2 & H3 & H4 & H5 & _).
  exists s', q. split; [exact H1|]. split; [exact H2|]. split; [exact H4|]. split; [|exact H3].
  intros i v Hv. destruct (H5 i v Hv) as (v1 & (D1 & D2 & D3) & Hn). eexists. split; [exact Hn|].
  set (L := capped (activation_cap E f s) q) in *. unfold registry_record. fold L.
  assert (F : forall (w : Validator) ae, no_exit w = no_exit (queued E f (epoch_of E s) v) ->
     same_identity v w /\ v_activation_eligibility_epoch w = (if enters_queue E f v then epoch_of E s + 1 else v_activation_eligibility_epoch v)
     /\ v_activation_epoch w = v_activation_epoch v
     /\ same_identity v (set_v_activation_epoch ae w) /\ v_activation_eligibility_epoch (set_v_activation_epoch ae w) = (if enters_queue E f v then epoch_of E s + 1 else v_activation_eligibility_epoch v)).
  { intros w ae Hw. unfold no_exit, queued in Hw. destruct w, v. cbn in Hw. unfold same_identity. destruct (enters_queue E f _); cbn in Hw; injection Hw as -> -> -> -> -> ->; cbn; auto 10. }
  destruct (F v1 (earliest_exit E s) D1) as (F1 & F2 & F3 & F4 & F5).
  assert (X : forall w, (w = v1 \/ w = set_v_activation_epoch (earliest_exit E s) v1) ->
     if ejected E s v then earliest_exit E s <= v_exit_epoch w < 2 ^ 63 /\ v_withdrawable_epoch w = v_exit_epoch w + MIN_VALIDATOR_WITHDRAWABILITY_DELAY E
     else v_exit_epoch w = v_exit_epoch v /\ v_withdrawable_epoch w = v_withdrawable_epoch v).
  { intros w Hw. assert (v_exit_epoch w = v_exit_epoch v1 /\ v_withdrawable_epoch w = v_withdrawable_epoch v1) as [-> ->] by (destruct Hw as [-> | ->]; split; reflexivity).
    destruct (ejected E s v).
    - destruct (D2 eq_refl) as [[Ha Hb] Hd]. auto.
    - rewrite (D3 eq_refl). unfold queued. destruct (enters_queue E f v); split; reflexivity. }
  destruct (memN i L) eqn:Hm.
  - apply memN_true in Hm. split; [exact F4|]. split; [exact F5|]. split; [reflexivity|]. split; [contradiction|]. apply X. right; reflexivity.
  - apply memN_false in Hm. split; [exact F1|]. split; [exact F2|]. split; [contradiction|]. split; [intros _; exact F3|]. apply X. left; reflexivity.
Qed.
(** the queue is a function of the state, and at most the cap of it is activated *)
Theorem C11_queue_unique : forall (s : BeaconState) (q q' : list N), is_activation_queue s q -> is_activation_queue s q' -> q = q'.
Proof. intros. eapply queue_unique; eassumption. Qed.
Theorem C11_activation_limit : forall (E : Env) (f : Fork) (s s' : BeaconState),
  ctx_sane E -> ctx_sane_electra E -> f <> Electra -> slot_small s -> state_shape E s -> registry_room E f s -> cp_epoch (finalized_checkpoint s) <= epoch_of E s ->
  process_registry_updates E f s = (Ok tt, s') ->
  forall l, NoDup l -> (forall i, In i l -> exists v v', nthN (validators s) i = Some v /\ nthN (validators s') i = Some v' /\ v_activation_epoch v' <> v_activation_epoch v) ->
  lenN l <= churn_limit E s.
Proof.
  intros E f s s' Hc Hel Hf Hs Hsh Hr Hfin H l Hnd Hl. destruct (C11_registry E f s Hc Hel Hs Hsh Hr Hfin) as (s1 & q & H1 & H2 & _ & H4 & _).
  rewrite H in H1. injection H1 as <-.
  assert (Hcap : exists n, activation_cap E f s = Some n /\ n <= churn_limit E s) by (destruct f; cbn [activation_cap]; try contradiction; eexists; (split; [reflexivity|]); lia).
  destruct Hcap as (n & Hn & Hle). eapply N.le_trans; [|exact Hle].
  assert (Hincl : incl l (firstN n q)).
  { intros i Hi. destruct (Hl i Hi) as (v & v' & Hv & Hv' & Hne). destruct (H4 i v Hv) as (w & Hw & _ & _ & _ & Hno & _). assert (w = v') by congruence. subst w.
    rewrite Hn in Hno. cbn [capped] in Hno. destruct (in_dec N.eq_dec i (firstN n q)) as [Hin|Hout]; [exact Hin|]. exfalso. apply Hne. apply Hno. exact Hout. }
  pose proof (NoDup_incl_length Hnd Hincl) as Hlen. unfold lenN. unfold firstN in Hlen. rewrite firstn_length in Hlen. lia.
Qed.
(** ejections respect the churn limit of the exit queue *)
Theorem C11_ejection_churn : forall (E : Env) (f : Fork) (s s' : BeaconState) (e : N),
  ctx_sane E -> ctx_sane_electra E -> f <> Electra -> slot_small s -> state_shape E s -> registry_room E f s -> cp_epoch (finalized_checkpoint s) <= epoch_of E s ->
  process_registry_updates E f s = (Ok tt, s') -> e <> FAR_FUTURE_EPOCH -> exits_at s' e <= N.max (exits_at s e) (churn_limit E s).
Proof.
  intros E f s s' e Hc Hel Hf Hs Hsh Hr Hfin H He. destruct (registry_run E Hc Hel f s Hs Hsh (room_of E f s Hc Hs Hsh Hr) Hfin) as (s1 & q & H1 & _ & _ & _ & _ & H6).
  rewrite H in H1. injection H1 as <-. apply H6; assumption.
Qed.

(** ** C46 *)
Theorem C46_deneb_cap : forall (E : Env) (s s' : BeaconState),
  ctx_sane E -> ctx_sane_electra E -> slot_small s -> state_shape E s -> registry_room E Deneb s -> cp_epoch (finalized_checkpoint s) <= epoch_of E s ->
  process_registry_updates E Deneb s = (Ok tt, s') ->
  forall l, NoDup l -> (forall i, In i l -> exists v v', nthN (validators s) i = Some v /\ nthN (validators s') i = Some v' /\ v_activation_epoch v' <> v_activation_epoch v) ->
  lenN l <= N.min (MAX_PER_EPOCH_ACTIVATION_CHURN_LIMIT E) (churn_limit E s).
Proof.
  intros E s s' Hc Hel Hs Hsh Hr Hfin H l Hnd Hl. destruct (C11_registry E Deneb s Hc Hel Hs Hsh Hr Hfin) as (s1 & q & H1 & H2 & _ & H4 & _).
  rewrite H in H1. injection H1 as <-. set (n := N.min _ _).
  assert (Hincl : incl l (firstN n q)).
  { intros i Hi. destruct (Hl i Hi) as (v & v' & Hv & Hv' & Hne). destruct (H4 i v Hv) as (w & Hw & _ & _ & _ & Hno & _). assert (w = v') by congruence. subst w.
    cbn [activation_cap capped] in Hno. destruct (in_dec N.eq_dec i (firstN n q)) as [Hin|Hout]; [exact Hin|]. exfalso. apply Hne. apply Hno. exact Hout. }
  pose proof (NoDup_incl_length Hnd Hincl) as Hlen. unfold lenN. unfold firstN in Hlen. rewrite firstn_length in Hlen. lia.
Qed.
(** the cap is reached whenever enough validators wait *)
Theorem C46_cap_reached : forall (E : Env) (s s' : BeaconState),
  ctx_sane E -> ctx_sane_electra E -> slot_small s -> state_shape E s -> registry_room E Deneb s -> cp_epoch (finalized_checkpoint s) <= epoch_of E s ->
  process_registry_updates E Deneb s = (Ok tt, s') ->
  exists q, is_activation_queue s q /\ forall i, In i (firstN (N.min (MAX_PER_EPOCH_ACTIVATION_CHURN_LIMIT E) (churn_limit E s)) q) ->
    exists v', nthN (validators s') i = Some v' /\ v_activation_epoch v' = earliest_exit E s.
Proof.
  intros E s s' Hc Hel Hs Hsh Hr Hfin H. destruct (C11_registry E Deneb s Hc Hel Hs Hsh Hr Hfin) as (s1 & q & H1 & H2 & _ & H4 & _).
  rewrite H in H1. injection H1 as <-. exists q. split; [exact H2|]. intros i Hi.
  assert (Hq : In i q) by (rewrite <- (firstn_skipn (N.to_nat (N.min (MAX_PER_EPOCH_ACTIVATION_CHURN_LIMIT E) (churn_limit E s))) q); apply in_or_app; left; exact Hi). apply H2 in Hq as (v & Hv & _). destruct (H4 i v Hv) as (v' & Hv' & _ & _ & Hyes & _). exists v'. split; [exact Hv'|]. apply Hyes. exact Hi.
Qed.

(** ** C29 *)
Theorem C29_update : forall (E : Env) (f : Fork) (s : BeaconState),
  ctx_sane E -> ctx_sane_epoch E -> lenN (balances s) = lenN (validators s) -> effective_bounded s -> (forall b, In b (balances s) -> b < 2 ^ 62) ->
  exists vs, process_effective_balance_updates E f s = (Ok tt, set_validators vs s) /\ lenN vs = lenN (validators s)
    /\ forall i v b, nthN (validators s) i = Some v -> nthN (balances s) i = Some b ->
         nthN vs i = Some (set_v_effective_balance (next_effective E f v b) v).
Proof. intros. apply effective_updates_run; assumption. Qed.
(** a second run changes nothing *)
Theorem C29_idempotent : forall (E : Env) (f : Fork) (s s' : BeaconState),
  ctx_sane E -> ctx_sane_epoch E -> lenN (balances s) = lenN (validators s) -> effective_bounded s -> (forall b, In b (balances s) -> b < 2 ^ 62) ->
  effective_bounded s' -> process_effective_balance_updates E f s = (Ok tt, s') -> process_effective_balance_updates E f s' = (Ok tt, s').
Proof.
  intros E f s s' Hc He Hl Hb Hbal Hb' H. destruct (C29_update E f s Hc He Hl Hb Hbal) as (vs & H1 & H2 & H3). rewrite H in H1. injection H1 as ->.
  destruct (C29_update E f (set_validators vs s) Hc He) as (ws & G1 & G2 & G3).
  - gs. congruence.
  - exact Hb'.
  - exact Hbal.
  - rewrite G1. f_equal. gs. replace ws with vs; [reflexivity|]. gsh G2. gsh G3. apply nthN_ext. intros i. destruct (nthN vs i) as [w|] eqn:Hw.
    + assert (Hlt : i < lenN vs) by (eapply nthN_some; eauto). destruct (nthN_lt (validators s) i) as [v Hv]; [lia|]. destruct (nthN_lt (balances s) i) as [b Hbb]; [lia|].
      rewrite (G3 i w b Hw Hbb). f_equal. rewrite (H3 i v b Hv Hbb) in Hw. injection Hw as <-. rewrite next_effective_idem. destruct v; reflexivity.
    + apply nthN_none in Hw. symmetry. apply nthN_none. lia.
Qed.

(** ** C30 *)
Theorem C30_correlation_penalty : forall (E : Env) (f : Fork) (s : BeaconState),
  ctx_sane E -> slot_small s -> lenN (balances s) = lenN (validators s) -> effective_bounded s -> active_balance_fits E s -> penalties_fit E f s ->
  exists bs, process_slashings E f s = (Ok tt, set_balances bs s) /\ lenN bs = lenN (balances s)
    /\ forall i v b, nthN (validators s) i = Some v -> nthN (balances s) i = Some b ->
         nthN bs i = Some (if halfway E s v then b - correlation_penalty E f s v else b).
Proof.
  intros E f s H H0 H1 H2 H3 H4. destruct (slashings_run E H f s) as (bs & A & B & C); try assumption. exists bs. split; [exact A|]. split; [exact B|].
  intros i v b Hv Hb. rewrite (C i v b Hv Hb). destruct (halfway E s v); [reflexivity|]. f_equal. lia.
Qed.
(** the penalty never exceeds the effective balance *)
Theorem C30_penalty_bounded : forall (E : Env) (f : Fork) (s : BeaconState) (v : Validator), ctx_sane E -> correlation_penalty E f s v <= v_effective_balance v.
Proof. intros. apply penalty_small; assumption. Qed.

(** ** C31 *)
Theorem C31_periodic_updates : forall (E : Env) (f : Fork) (s s' : BeaconState),
  ctx_sane E -> ctx_sane_epoch E -> slot_small s -> process_epoch E f s = (Ok tt, s') ->
  let next := epoch_of E s + 1 in
  eth1_data_votes s' = (if epoch_ends_period E s (EPOCHS_PER_ETH1_VOTING_PERIOD E) then [] else eth1_data_votes s)
  /\ slashings s' = updN (slashings s) (next mod EPOCHS_PER_SLASHINGS_VECTOR E) 0
  /\ (exists m, nthN (randao_mixes s) (epoch_of E s mod EPOCHS_PER_HISTORICAL_VECTOR E) = Some m
        /\ randao_mixes s' = updN (randao_mixes s) (next mod EPOCHS_PER_HISTORICAL_VECTOR E) m)
  /\ (epoch_ends_period E s (SLOTS_PER_HISTORICAL_ROOT E / SLOTS_PER_EPOCH E) = false ->
        historical_roots s' = historical_roots s /\ historical_summaries s' = historical_summaries s)
  /\ (epoch_ends_period E s (SLOTS_PER_HISTORICAL_ROOT E / SLOTS_PER_EPOCH E) = true ->
        exists br sr, htr E (ORoots (block_roots s)) = Some br /\ htr E (ORoots (state_roots s)) = Some sr
        /\ (fork_le Capella f = true -> historical_roots s' = historical_roots s /\ historical_summaries s' = historical_summaries s ++ [mkHistSum br sr])
        /\ (fork_le Capella f = false -> historical_summaries s' = historical_summaries s
              /\ exists root, htr E (OHistoricalSummary (mkHistSum br sr)) = Some root /\ historical_roots s' = historical_roots s ++ [root]))
  /\ (f = Phase0 -> previous_epoch_attestations s' = current_epoch_attestations s /\ current_epoch_attestations s' = [])
  /\ (f <> Phase0 -> previous_epoch_participation s' = current_epoch_participation s /\ current_epoch_participation s' = repeatN 0 (lenN (validators s'))).
Proof.
  intros E f s s' Hc He Hs H next. destruct (epoch_periodic E Hc f s s' He Hs H) as [P1 P2 P3 P4 P5 P6 P7].
  split; [exact P2|]. split; [exact P3|]. split; [exact P4|]. split; [|split].
  - intros Hp. rewrite Hp in P5. exact P5.
  - intros Hp. rewrite Hp in P5. destruct P5 as (br & sr & H1 & H2 & H3). exists br, sr. split; [exact H1|]. split; [exact H2|]. destruct (fork_le Capella f); split; intros Hx; try discriminate; exact H3.
  - split; intros Hf; [subst f; exact P6|]. destruct f; try exact P6. contradiction.
Qed.

(** ** C32 *)
Theorem C32_only_eligible : forall (E : Env) (f : Fork) (s : BeaconState) (i b : N),
  ctx_sane E -> hash_wf (hash E) -> nthN (balances s) i = Some b -> b < 2 ^ 64 -> eligible_at E s i = false ->
  (f = Phase0 -> state_shape E s /\ votes_recorded E Phase0 s /\ previous_votes_in_epoch E s /\ ~ includes_votes s i) ->
  nthN (balances (snd (process_rewards_and_penalties E f s))) i = Some b.
Proof. intros. apply rewards_keep; assumption. Qed.
Theorem C32_genesis_epoch : forall (E : Env) (f : Fork) (s : BeaconState), ctx_sane E -> epoch_of E s = 0 -> process_rewards_and_penalties E f s = (Ok tt, s).
Proof.
  intros E f s Hc He. unfold process_rewards_and_penalties. rewrite (run_rd _ _ _ (epoch_of E s)) by (apply current_epoch_ok; exact Hc). rewrite He. reflexivity.
Qed.
(** from altair on the exact balances *)
Theorem C32_altair_exact : forall (E : Env) (f : Fork) (s : BeaconState),
  ctx_sane E -> ctx_sane_att E -> f <> Phase0 -> epoch_of E s <> 0 -> registry_aligned f s -> cp_epoch (finalized_checkpoint s) <= prev_epoch_of E s ->
  stake_fits s -> rewards_fit E f s ->
  exists bs, process_rewards_and_penalties E f s = (Ok tt, set_balances bs s) /\ lenN bs = lenN (balances s)
    /\ forall i b, nthN (balances s) i = Some b -> nthN bs i = Some (balance_after_rewards E f s i b).
Proof.
  intros E f s Hc Ha Hf He [A1 A2] Hfin Hst Hr. destruct (A2 Hf) as (A3 & A4 & A5).
  apply rewards_run; try assumption. unfold reward_ready. split; [exact He|]. split; [congruence|]. split; [congruence|]. split; [congruence|]. split; [exact Hfin|].
  apply (active_total E Hc s Hst).
Qed.
(** a validator that is not eligible keeps its balance under the exact formula too *)
Theorem C32_not_eligible_formula : forall (E : Env) (f : Fork) (s : BeaconState) (i b : N), eligible_at E s i = false -> balance_after_rewards E f s i b = b.
Proof. intros E f s i b H. unfold balance_after_rewards, flag_gain, flag_loss, inactivity_loss. rewrite H. cbn [andb]. lia. Qed.

(** ** C34 *)
Theorem C34_scores : forall (E : Env) (s : BeaconState),
  ctx_sane E -> epoch_of E s <> 0 -> lenN (previous_epoch_participation s) = lenN (validators s) -> lenN (inactivity_scores s) = lenN (validators s) ->
  cp_epoch (finalized_checkpoint s) <= prev_epoch_of E s -> (forall x, In x (inactivity_scores s) -> x + INACTIVITY_SCORE_BIAS E < 2 ^ 64) ->
  exists sc, process_inactivity_updates E s = (Ok tt, set_inactivity_scores sc s) /\ lenN sc = lenN (inactivity_scores s)
    /\ forall i x, nthN (inactivity_scores s) i = Some x -> nthN sc i = Some (if eligible_at E s i then next_score E s i x else x).
Proof. intros. apply inactivity_run; assumption. Qed.
Theorem C34_genesis_epoch : forall (E : Env) (s : BeaconState), ctx_sane E -> epoch_of E s = 0 -> process_inactivity_updates E s = (Ok tt, s).
Proof.
  intros E s Hc He. unfold process_inactivity_updates. rewrite (run_rd _ _ _ (epoch_of E s)) by (apply current_epoch_ok; exact Hc). rewrite He. reflexivity.
Qed.

(** ** C35 *)
Theorem C35_rotation : forall (E : Env) (f : Fork) (s s' : BeaconState),
  ctx_sane E -> ctx_sane_epoch E -> slot_small s -> f <> Phase0 -> process_epoch E f s = (Ok tt, s') ->
  (epoch_ends_period E s (EPOCHS_PER_SYNC_COMMITTEE_PERIOD E) = false ->
     current_sync_committee s' = current_sync_committee s /\ next_sync_committee s' = next_sync_committee s)
  /\ (epoch_ends_period E s (EPOCHS_PER_SYNC_COMMITTEE_PERIOD E) = true ->
     current_sync_committee s' = next_sync_committee s /\ get_next_sync_committee E s' = Ok (next_sync_committee s')).
Proof.
  intros E f s s' Hc He Hs Hf H. destruct (epoch_periodic E Hc f s s' He Hs H) as [P1 P2 P3 P4 P5 P6 P7].
  assert (P7' : if epoch_ends_period E s (EPOCHS_PER_SYNC_COMMITTEE_PERIOD E)
           then current_sync_committee s' = next_sync_committee s /\ get_next_sync_committee E s' = Ok (next_sync_committee s')
           else current_sync_committee s' = current_sync_committee s /\ next_sync_committee s' = next_sync_committee s) by (destruct f; try exact P7; contradiction).
  split; intros Hp; rewrite Hp in P7'; exact P7'.
Qed.
(** a computed committee: the first accepted candidates, exactly SYNC_COMMITTEE_SIZE of them, all active in the next epoch *)
Theorem C35_members : forall (E : Env) (s : BeaconState) (c : SyncCommittee),
  ctx_sane E -> hash_wf (hash E) -> state_shape E s -> slot_small s -> effective_bounded s -> N.of_nat (fuel E) < 2 ^ 60 -> 0 < SYNC_COMMITTEE_SIZE E ->
  get_next_sync_committee E s = Ok c ->
  lenN (sc_public_keys c) = SYNC_COMMITTEE_SIZE E
  /\ exists l, sync_members E s l /\ committee_of_members E s l c /\ forall i, In i l -> In i (active_set s (epoch_of E s + 1)).
Proof.
  intros E s c Hc Hw Hsh Hs Hb Hf Hz H. destruct (next_committee_spec E Hc Hw s c Hsh Hs Hb Hf Hz H) as (l & H1 & H2 & H3). split; [|eauto].
  destruct H1 as (_ & _ & _ & _ & Hl). destruct H2 as [H2 _]. rewrite <- Hl. apply (f_equal (@lenN _)) in H2. rewrite !lenN_map in H2. congruence.
Qed.

(** * Examples: one state that meets every hypothesis above

    Slot 15, epoch 3. Validator 0 is slashed and halfway to its withdrawable epoch, 1 is at the ejection balance, 2 is new, 3 and 5
    wait for activation, 4 votes for everything. *)
Definition epoch_toy : BeaconState :=
  let V := fun i eff sl el ac ex wd => mkValidator (toy_pk i) (0 :: repeat 0 31) eff sl el ac ex wd in
  let M := MAX_EFFECTIVE_BALANCE tiny in let F := FAR_FUTURE_EPOCH in
  set_validators [V 0 M true 0 0 5 7; V 1 (EJECTION_BALANCE tiny) false 0 0 F F; V 2 M false F F F F; V 3 M false 0 F F F; V 4 M false 0 0 F F; V 5 M false 0 F F F]
  (set_balances [M; EJECTION_BALANCE tiny; M; M + 3000000000; M - 3000000000; 7]
  (set_slashings [0; M; 0; 0; 0; 0; 0; 0] (set_inactivity_scores [50; 60; 0; 7; 9; 0]
  (set_eth1_data_votes [mkEth1 zero32 1 zero32] (set_previous_epoch_participation [0; 0; 0; 0; 7; 0] (set_current_epoch_participation [0; 0; 0; 0; 3; 0]
    (tiny_state 6 15))))))).
Lemma all_of {A} (p : A -> bool) (P : A -> Prop) l : (forall x, p x = true -> P x) -> forallb p l = true -> forall x, In x l -> P x.
Proof. intros HP Hl x Hx. apply HP. rewrite forallb_forall in Hl. exact (Hl x Hx). Qed.
Lemma below_all (P : N -> Prop) (p : N -> bool) n : (forall x, p x = true -> P x) -> forallb p (rangeN n) = true -> forall i, i < n -> P i.
Proof. intros HP Hl i Hi. apply (all_of p P (rangeN n) HP Hl). apply In_rangeN. exact Hi. Qed.
Lemma tiny_sane_epoch : ctx_sane_epoch tiny. Proof. vm_compute. repeat split; congruence. Qed.
(** every shipped network satisfies [ctx_sane_epoch] *)
Lemma ctx_sane_epoch_networks : ctx_sane_epoch ctx_mainnet /\ ctx_sane_epoch ctx_minimal /\ ctx_sane_epoch ctx_goerli /\ ctx_sane_epoch ctx_sepolia
  /\ ctx_sane_epoch ctx_holesky /\ ctx_sane_epoch ctx_hoodi.
Proof. repeat split; vm_compute; congruence. Qed.
Lemma epoch_toy_bounded : effective_bounded epoch_toy.
Proof. unfold effective_bounded. apply (all_of (fun v => v_effective_balance v <=? 2 ^ 44)); [intros x Hx; apply N.leb_le; exact Hx|vm_compute; reflexivity]. Qed.
Lemma epoch_toy_exits : exits_below epoch_toy (2 ^ 61).
Proof.
  unfold exits_below. apply (all_of (fun v => (v_exit_epoch v =? FAR_FUTURE_EPOCH) || (v_exit_epoch v <? 2 ^ 61)) (fun v => v_exit_epoch v <> FAR_FUTURE_EPOCH -> v_exit_epoch v < 2 ^ 61)); [|vm_compute; reflexivity].
  intros v Hv Hne. apply orb_true_iff in Hv as [Hv|Hv]; [apply N.eqb_eq in Hv; contradiction|apply N.ltb_lt; exact Hv].
Qed.
Lemma epoch_toy_shape : state_shape tiny epoch_toy.
Proof. unfold state_shape. vm_compute. repeat split; congruence. Qed.
Example C11_toy : ctx_sane tiny /\ ctx_sane_electra tiny /\ slot_small epoch_toy /\ state_shape tiny epoch_toy /\ registry_room tiny Deneb epoch_toy
  /\ cp_epoch (finalized_checkpoint epoch_toy) <= epoch_of tiny epoch_toy /\ is_activation_queue epoch_toy [3; 5]
  /\ let '(r, s') := process_registry_updates tiny Deneb epoch_toy in
     map (fun v => (v_activation_eligibility_epoch v, v_activation_epoch v, v_exit_epoch v)) (validators s')
     = let F := FAR_FUTURE_EPOCH in [(0, 0, 5); (0, 0, 8); (4, F, F); (0, 8, F); (0, 0, F); (0, 8, F)].
Proof.
  split; [exact tiny_sane|]. split; [exact tiny_sane_electra|]. split; [vm_compute; reflexivity|]. split; [exact epoch_toy_shape|].
  split; [exact epoch_toy_exits|]. split; [vm_compute; discriminate|]. split; [|vm_compute; reflexivity].
  split.
  - constructor; [constructor; constructor|]. constructor; [|constructor]. vm_compute. right. split; reflexivity.
  - intros i. split.
    + intros [<-|[<-|[]]]; eexists; split; vm_compute; reflexivity.
    + intros (v & Hv & Ha). assert (Hi : i < 6) by (apply nthN_some in Hv; exact Hv).
      assert (Hc : i = 0 \/ i = 1 \/ i = 2 \/ i = 3 \/ i = 4 \/ i = 5) by lia.
      destruct Hc as [->|[->|[->|[->|[->| ->]]]]]; cbn; auto; injection Hv as <-; vm_compute in Ha; discriminate.
Qed.
(** three validators wait, the limit is 2 *)
Definition queue_toy : BeaconState := set_validators (map (fun v => if v_activation_epoch v =? FAR_FUTURE_EPOCH then set_v_activation_eligibility_epoch 0 v else v) (validators epoch_toy)) epoch_toy.
Example C46_toy : N.min (MAX_PER_EPOCH_ACTIVATION_CHURN_LIMIT tiny) (churn_limit tiny queue_toy) = 2
  /\ let '(r, s') := process_registry_updates tiny Deneb queue_toy in
     map v_activation_epoch (validators s') = let F := FAR_FUTURE_EPOCH in [0; 0; 8; 8; 0; F].
Proof. vm_compute. auto. Qed.
Example C29_toy : lenN (balances epoch_toy) = lenN (validators epoch_toy) /\ effective_bounded epoch_toy /\ (forall b, In b (balances epoch_toy) -> b < 2 ^ 62)
  /\ let '(r, s') := process_effective_balance_updates tiny Deneb epoch_toy in
     map v_effective_balance (validators s') = let M := MAX_EFFECTIVE_BALANCE tiny in [M; EJECTION_BALANCE tiny; M; M; M - 3000000000; 0].
Proof.
  split; [reflexivity|]. split; [exact epoch_toy_bounded|]. split; [|vm_compute; reflexivity].
  apply (all_of (fun b => b <? 2 ^ 62)); [intros x Hx; apply N.ltb_lt; exact Hx|vm_compute; reflexivity].
Qed.
Example C30_toy : active_balance_fits tiny epoch_toy /\ penalties_fit tiny Deneb epoch_toy
  /\ map (halfway tiny epoch_toy) (validators epoch_toy) = [true; false; false; false; false; false]
  /\ let '(r, s') := process_slashings tiny Deneb epoch_toy in
     balances s' = let M := MAX_EFFECTIVE_BALANCE tiny in [0; EJECTION_BALANCE tiny; M; M + 3000000000; M - 3000000000; 7].
Proof.
  split; [vm_compute; reflexivity|]. split; [|vm_compute; auto].
  split; [vm_compute; reflexivity|]. split; [vm_compute; reflexivity|].
  apply (all_of (fun v => v_effective_balance v / EFFECTIVE_BALANCE_INCREMENT tiny * slashed_share tiny Deneb epoch_toy <? 2 ^ 64)); [intros x Hx; apply N.ltb_lt; exact Hx|vm_compute; reflexivity].
Qed.
Example C31_toy : let '(r, s') := process_epoch tiny Deneb epoch_toy in
  is_ok r = true /\ eth1_data_votes s' = [] /\ nthN (slashings s') 4 = Some 0 /\ lenN (historical_summaries s') = 1
  /\ previous_epoch_participation s' = [0; 0; 0; 0; 3; 0] /\ current_epoch_participation s' = repeatN 0 6.
Proof. vm_compute. auto 10. Qed.
Example C32_toy : epoch_of tiny epoch_toy <> 0 /\ registry_aligned Deneb epoch_toy /\ cp_epoch (finalized_checkpoint epoch_toy) <= prev_epoch_of tiny epoch_toy
  /\ stake_fits epoch_toy /\ rewards_fit tiny Deneb epoch_toy
  /\ map (eligible_at tiny epoch_toy) (rangeN 6) = [true; true; false; false; true; false]
  /\ let '(r, s') := process_rewards_and_penalties tiny Deneb epoch_toy in
     map (fun '(a, b) => a ?= b) (combine (balances s') (balances epoch_toy)) = [Lt; Lt; Eq; Eq; Gt; Eq].
Proof.
  split; [vm_compute; discriminate|]. split; [split; [reflexivity|intros _; repeat split; reflexivity]|]. split; [vm_compute; discriminate|]. split; [vm_compute; reflexivity|].
  split; [|split; vm_compute; reflexivity].
  split; [vm_compute; reflexivity|]. split; [vm_compute; split; [discriminate|reflexivity]|]. split; [|split].
  - intros i k Hi Hk. revert k Hk.
    apply (below_all (fun i => forall k, k < 3 -> base_reward tiny epoch_toy i * flag_weight k * (flag_stake tiny epoch_toy k / EFFECTIVE_BALANCE_INCREMENT tiny) < 2 ^ 64)
       (fun i => forallb (fun k => base_reward tiny epoch_toy i * flag_weight k * (flag_stake tiny epoch_toy k / EFFECTIVE_BALANCE_INCREMENT tiny) <? 2 ^ 64) (rangeN 3)) (lenN (validators epoch_toy))).
    + intros x Hx. apply (below_all _ (fun k => base_reward tiny epoch_toy x * flag_weight k * (flag_stake tiny epoch_toy k / EFFECTIVE_BALANCE_INCREMENT tiny) <? 2 ^ 64)); [|exact Hx].
      intros k Hk. apply N.ltb_lt. exact Hk.
    + vm_compute. reflexivity.
    + exact Hi.
  - apply (below_all _ (fun i => effective_balance_of epoch_toy i * (match nthN (inactivity_scores epoch_toy) i with Some sc => sc | None => 0 end) <? 2 ^ 64));
      [intros x Hx; apply N.ltb_lt; exact Hx|vm_compute; reflexivity].
  - intros i b Hb. assert (Hi : i < 6) by (apply nthN_some in Hb; exact Hb). revert b Hb.
    apply (below_all (fun i => forall b, nthN (balances epoch_toy) i = Some b -> b + flag_gain tiny epoch_toy 0 i + flag_gain tiny epoch_toy 1 i + flag_gain tiny epoch_toy 2 i < 2 ^ 64)
      (fun i => match nthN (balances epoch_toy) i with Some b => b + flag_gain tiny epoch_toy 0 i + flag_gain tiny epoch_toy 1 i + flag_gain tiny epoch_toy 2 i <? 2 ^ 64 | None => true end) 6);
      [|vm_compute; reflexivity|exact Hi].
    intros x Hx b Hb. rewrite Hb in Hx. apply N.ltb_lt. exact Hx.
Qed.
Example C34_toy : (forall x, In x (inactivity_scores epoch_toy) -> x + INACTIVITY_SCORE_BIAS tiny < 2 ^ 64)
  /\ let '(r, s') := process_inactivity_updates tiny epoch_toy in
     map (fun '(a, b) => a ?= b) (combine (inactivity_scores s') (inactivity_scores epoch_toy)) = [Lt; Lt; Eq; Eq; Lt; Eq].
Proof.
  split; [|vm_compute; reflexivity].
  apply (all_of (fun x => x + INACTIVITY_SCORE_BIAS tiny <? 2 ^ 64)); [intros x Hx; apply N.ltb_lt; exact Hx|vm_compute; reflexivity].
Qed.
Example C35_toy : epoch_ends_period tiny epoch_toy (EPOCHS_PER_SYNC_COMMITTEE_PERIOD tiny) = true
  /\ hash_wf (hash tiny) /\ N.of_nat (fuel tiny) < 2 ^ 60 /\ 0 < SYNC_COMMITTEE_SIZE tiny
  /\ match get_next_sync_committee tiny epoch_toy with Ok c => lenN (sc_public_keys c) = 4 | _ => False end.
Proof. split; [vm_compute; reflexivity|]. split; [exact toy_hash_wf|]. split; [vm_compute; reflexivity|]. split; [vm_compute; reflexivity|]. vm_compute. reflexivity. Qed.

Print Assumptions C11_registry.
Print Assumptions C11_queue_unique.
Print Assumptions C11_activation_limit.
Print Assumptions C11_ejection_churn.
Print Assumptions C46_deneb_cap.
Print Assumptions C46_cap_reached.
Print Assumptions C29_update.
Print Assumptions C29_idempotent.
Print Assumptions C30_correlation_penalty.
Print Assumptions C30_penalty_bounded.
Print Assumptions C31_periodic_updates.
Print Assumptions C32_only_eligible.
Print Assumptions C32_genesis_epoch.
Print Assumptions C32_altair_exact.
Print Assumptions C32_not_eligible_formula.
Print Assumptions C34_scores.
Print Assumptions C34_genesis_epoch.
Print Assumptions C35_rotation.
Print Assumptions C35_members.
