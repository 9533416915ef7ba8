(** * Proofs about electra requests, consolidations and attestations *)
From Verif Require Import Base BaseLemmas Types Ctx Env Helpers HelpersAltair HelpersElectra Block Epoch StLemmas Frame
  SpecCommon SpecShuffle SpecHelpers SpecElectra SpecOps SpecBlock SpecAtt SpecEpoch SpecUpgrade SpecFlow SpecQueues
  HelperProofs HelperProofs2 OpsProofs ElectraProofs SlashProofs BlockProofs AttProofs EpochProofs RegistryProofs FlowProofs UpgradeProofs QueueProofs.
From Coq Require Import Sorted.

Section Q.
Variable E : Env.
Hypothesis Hctx : ctx_sane E.
Hypothesis Hel : ctx_sane_electra E.

(** ** consolidation scheduling *)
Definition consolidation_slot s bal : N :=
  consolidation_start E s + churn_epochs (exit_churn E s) (if earliest_consolidation_epoch s <? earliest_exit E s then exit_churn E s else consolidation_balance_to_consume s) bal.
Lemma consolidation_capacity_slot s bal : bal <= consolidation_capacity E (exit_churn E s) s (consolidation_slot s bal)
  /\ (forall e, consolidation_start E s <= e -> bal <= consolidation_capacity E (exit_churn E s) s e -> consolidation_slot s bal <= e).
Proof.
  unfold consolidation_capacity, consolidation_slot. set (bud := if _ <? _ then _ else _).
  pose proof (exit_churn_bounds E Hctx Hel s) as Hp. pose proof (churn_epochs_spec (exit_churn E s) bud bal ltac:(lia)) as [H1 H2].
  split; [replace (consolidation_start E s + _ - consolidation_start E s) with (churn_epochs (exit_churn E s) bud bal) by lia; exact H1|].
  intros e He Hc. apply H2 in Hc. lia.
Qed.
Definition consolidation_scheduled s bal : BeaconState :=
  let q := consolidation_slot s bal in
  set_earliest_consolidation_epoch q (set_consolidation_balance_to_consume (consolidation_capacity E (exit_churn E s) s q - bal) s).
Lemma consolidation_epoch_ok s bal : slot_small s -> active_balance_fits E s ->
  consolidation_balance_to_consume s < 2 ^ 62 -> bal < 2 ^ 62 -> consolidation_start E s < 2 ^ 63 ->
  compute_consolidation_epoch_and_update_churn E bal s = (Ok (consolidation_slot s bal), consolidation_scheduled s bal).
Proof.
  intros Hs Hf Hx Hb Hq. unfold compute_consolidation_epoch_and_update_churn, consolidation_scheduled. cbv zeta.
  rewrite (run_rd _ _ _ (consolidation_slot s bal, consolidation_capacity E (exit_churn E s) s (consolidation_slot s bal) - bal)).
  - rewrite run_md. cbn [fst snd]. reflexivity.
  - cbv beta. rewrite (current_epoch_ok E Hctx). cbn [rbind]. rewrite earliest_ok by assumption. cbn [rbind].
    rewrite exit_churn_ok by assumption. cbn [rbind]. rewrite churn_step_ok; [|apply exit_churn_bounds; assumption|exact Hx|exact Hb|exact Hq].
    cbv zeta. unfold consolidation_slot, consolidation_capacity. fold (consolidation_start E s). repeat f_equal. lia.
Qed.

(** ** consolidation operations *)
Lemma active_iff v e : is_active_validator v e = active_at e v. Proof. reflexivity. Qed.
Lemma consolidation_checks_iff op s src tgt : active_balance_fits E s ->
  consolidation_checks E op s = Ok (src, tgt) <-> consolidation_valid E s op src tgt.
Proof.
  intros Hf. unfold consolidation_checks, consolidation_valid. cbv zeta. rewrite (consolidation_churn_ok E Hctx) by exact Hf. cbn [rbind]. rewrite (current_epoch_ok E Hctx). split.
  - intros H. rinv H.
    repeat match goal with
    | K : (_ <? _) = true |- _ => apply N.ltb_lt in K
    | K : (_ <=? _) = true |- _ => apply N.leb_le in K
    | K : (_ =? _) = true |- _ => apply N.eqb_eq in K
    | K : negb _ = true |- _ => apply negb_true_iff, N.eqb_neq in K
    | K : has_execution_withdrawal_credential _ = true |- _ => rewrite execution_kind in K
    | K : bytes_eqb _ _ = true |- _ => apply bytes_eqb_true in K
    end.
    injection H as -> ->. subst x4. repeat (split; [assumption|]). exists x13, x14. split; [apply (compute_domain_ok E DConsolidation (GENESIS_FORK_VERSION E)); exact H14|].
    split; [apply signing_root_ok; exact H15|exact H16].
  - intros (A1 & A2 & A3 & A4 & A5 & A6 & A7 & A8 & A9 & A10 & A11 & A12 & A13 & d & root & A14 & A15 & A16).
    rewrite run_require by (apply N.ltb_lt; exact A1). rewrite run_require by (apply N.ltb_lt; exact A2).
    rewrite run_require by (apply negb_true_iff, N.eqb_neq; exact A3). rewrite (run_r _ _ src) by (apply getN_ok; exact A4). rewrite (run_r _ _ tgt) by (apply getN_ok; exact A5).
    cbn [rbind]. rewrite !active_iff, !execution_kind. rewrite run_require by exact A6. rewrite run_require by exact A7.
    rewrite run_require by (apply N.eqb_eq; exact A8). rewrite run_require by (apply N.eqb_eq; exact A9). rewrite run_require by (apply N.leb_le; exact A10).
    rewrite run_require by exact A11. rewrite run_require by exact A12. rewrite run_require by (apply bytes_eqb_true; exact A13).
    rewrite (run_r _ _ d) by (apply (compute_domain_ok E DConsolidation (GENESIS_FORK_VERSION E)); exact A14).
    rewrite (run_r _ _ root) by (apply signing_root_ok; exact A15). rewrite run_require by exact A16. reflexivity.
Qed.
(** what the code does with an accepted consolidation: the withdrawable epoch is computed from the exit epoch the source had
    before, which is the largest 64-bit number *)
Definition consolidation_exit s (c : Consolidation) (src : Validator) (w : N) : BeaconState :=
  let q := consolidation_slot s (v_effective_balance src) in
  let s1 := consolidation_scheduled s (v_effective_balance src) in
  set_validators (updN (validators s) (cn_source_index c) (set_v_withdrawable_epoch w (set_v_exit_epoch q src))) s1.
Lemma consolidation_run op s src tgt : slot_small s -> active_balance_fits E s -> 1 <= MIN_VALIDATOR_WITHDRAWABILITY_DELAY E ->
  consolidation_balance_to_consume s < 2 ^ 62 -> v_effective_balance src < 2 ^ 62 -> consolidation_start E s < 2 ^ 63 ->
  consolidation_valid E s op src tgt ->
  process_consolidation E op s =
    if chk E then (Panic, consolidation_exit s (scn_message op) src (v_withdrawable_epoch src))
    else (Ok tt, set_pending_consolidations (pending_consolidations s ++ [mkPC (cn_source_index (scn_message op)) (cn_target_index (scn_message op))])
                   (consolidation_exit s (scn_message op) src (MIN_VALIDATOR_WITHDRAWABILITY_DELAY E - 1))).
Proof.
  intros Hs Hf Hd Hb He Hq Hv. unfold process_consolidation. cbv zeta.
  rewrite (run_rd _ _ _ (src, tgt)) by (apply consolidation_checks_iff; assumption). cbn [fst].
  rewrite (run_bind _ _ _ _ _ (consolidation_epoch_ok s _ Hs Hf Hb He Hq)).
  destruct Hv as (_ & _ & _ & Hsrc & _ & _ & _ & Hx & _). set (c := scn_message op) in *. set (q := consolidation_slot s (v_effective_balance src)).
  set (s1 := consolidation_scheduled s (v_effective_balance src)). assert (Hv1 : nthN (validators s1) (cn_source_index c) = Some src) by exact Hsrc.
  rewrite (run_bind _ _ _ _ _ (mod_validator_ok s1 _ _ src Hv1)). rewrite Hx. unfold add, uadd. change FAR_FUTURE_EPOCH with U64_MAX.
  assert (Hu : U64_MAX + MIN_VALIDATOR_WITHDRAWABILITY_DELAY E <? U64 = false) by (apply N.ltb_ge; change U64 with (U64_MAX + 1); lia). rewrite Hu.
  assert (Hlt : cn_source_index c < lenN (validators s)) by (eapply nthN_some; eauto).
  destruct (chk E).
  - unfold sbind, lift. f_equal.
  - rewrite (run_lift _ _ _ (MIN_VALIDATOR_WITHDRAWABILITY_DELAY E - 1)).
    2:{ f_equal. replace (U64_MAX + MIN_VALIDATOR_WITHDRAWABILITY_DELAY E) with (MIN_VALIDATOR_WITHDRAWABILITY_DELAY E - 1 + 1 * U64) by (change U64_MAX with (U64 - 1); pows; lia).
        rewrite N.mod_add by discriminate. apply N.mod_small. clear - Hctx Hd. ctxs Hctx. pows. lia. }
    set (s2 := set_validators (updN (validators s1) (cn_source_index c) (set_v_exit_epoch q src)) s1).
    assert (Hv2 : nthN (validators s2) (cn_source_index c) = Some (set_v_exit_epoch q src)) by (apply nthN_updN_eq; exact Hlt).
    rewrite (run_bind _ _ _ _ _ (mod_validator_ok s2 _ _ _ Hv2)). unfold md, s2, consolidation_exit. gs. fold q s1. rewrite updN_updN. reflexivity.
Qed.

(** ** withdrawal requests *)
Lemma holder_unique s pk i j : key_holder s pk i -> key_holder s pk j -> i = j.
Proof.
  intros [A1 A2] [B1 B2]. destruct (N.lt_trichotomy i j) as [H|[H|H]]; [|exact H|]; [specialize (B2 _ H); contradiction|specialize (A2 _ H); contradiction].
Qed.
Lemma request_action s r : slot_small s -> SHARD_COMMITTEE_PERIOD E <= 2 ^ 32 -> lenN (balances s) = lenN (validators s) -> (forall i, pending_balance_of s i < 2 ^ 62) ->
  exists act, withdrawal_request_action E r s = Ok act
    /\ (forall i, act = WExit i <-> full_exit_granted E s r i) /\ (forall i a, act = WPartial i a <-> partial_granted E s r i a).
Proof.
  intros Hs Hsh Hl Hp. unfold withdrawal_request_action. cbv zeta. change FULL_EXIT_REQUEST_AMOUNT with 0.
  assert (Hno : forall P : Prop, (forall i, ~ full_exit_granted E s r i) -> (forall i a, ~ partial_granted E s r i a) ->
     exists act, Ok WNothing = Ok act /\ (forall i, act = WExit i <-> full_exit_granted E s r i) /\ (forall i a, act = WPartial i a <-> partial_granted E s r i a)).
  { intros _ H1 H2. exists WNothing. split; [reflexivity|]. split; intros; (split; [discriminate|intros H; exfalso; eauto]); [apply (H1 i H)|apply (H2 i a H)]. }
  assert (Hno' : (forall i v, ~ request_authorised E s r i v) ->
     exists act, Ok WNothing = Ok act /\ (forall i, act = WExit i <-> full_exit_granted E s r i) /\ (forall i a, act = WPartial i a <-> partial_granted E s r i a)).
  { intros H. apply (Hno True); [intros i (_ & _ & v & Hv); eapply H; eauto|intros i a (_ & _ & v & Hv & _); eapply H; eauto]. }
  destruct ((lenN (pending_partial_withdrawals s) =? PENDING_PARTIAL_WITHDRAWALS_LIMIT E) && negb (elw_amount r =? 0)) eqn:Hq.
  { apply andb_true_iff in Hq as [Hq Ha]. apply N.eqb_eq in Hq. apply negb_true_iff, N.eqb_neq in Ha.
    apply (Hno True); [intros i (H & _); contradiction|intros i a (_ & H & _); contradiction]. }
  destruct (position_pk (elw_validator_public_key r) (validators s) 0) as [i|] eqn:Hpos.
  2:{ apply unknown_position in Hpos. apply Hno'. intros i v ((H & _) & _). exact (Hpos i H). }
  apply holder_position in Hpos as Hhold. assert (Hv : exists v, nthN (validators s) i = Some v).
  { destruct Hhold as [H _]. unfold key_of in H. destruct (nthN (validators s) i) as [v|]; [eauto|discriminate]. }
  destruct Hv as [v Hv]. rewrite (run_r _ _ v) by (apply idx_ok; exact Hv). rewrite execution_kind.
  assert (Hun : forall j w, request_authorised E s r j w -> j = i /\ w = v).
  { intros j w (H1 & H2 & _). pose proof (holder_unique _ _ _ _ H1 Hhold) as ->. split; congruence. }
  destruct (kind_is 1 v || kind_is 2 v) eqn:Hk; cbn [andb negb].
  2:{ apply Hno'. intros j w H. destruct (Hun _ _ H) as [-> ->]. destruct H as (_ & _ & H & _). congruence. }
  destruct (bytes_eqb (cred_address v) (elw_source_address r)) eqn:Hadr; cbn [negb].
  2:{ apply Hno'. intros j w H. destruct (Hun _ _ H) as [-> ->]. destruct H as (_ & _ & _ & H & _). apply bytes_eqb_true in H. unfold cred_address in Hadr. congruence. }
  rewrite (run_r _ _ (epoch_of E s)) by (apply (current_epoch_ok E Hctx)). rewrite active_iff.
  destruct (active_at (epoch_of E s) v) eqn:Hact; cbn [negb].
  2:{ apply Hno'. intros j w H. destruct (Hun _ _ H) as [-> ->]. destruct H as (_ & _ & _ & _ & H & _). congruence. }
  destruct (N.eqb_spec (v_exit_epoch v) FAR_FUTURE_EPOCH) as [Hex|Hex]; cbn [negb].
  2:{ apply Hno'. intros j w H. destruct (Hun _ _ H) as [-> ->]. destruct H as (_ & _ & _ & _ & _ & H & _). congruence. }
  pose proof (epoch_small E Hctx s Hs) as Hep. assert (Ha1 : v_activation_epoch v <= epoch_of E s) by (unfold active_at in Hact; apply andb_true_iff in Hact as [Hact _]; apply N.leb_le in Hact; exact Hact).
  rewrite (run_r _ _ (v_activation_epoch v + SHARD_COMMITTEE_PERIOD E)) by (unfold add; apply uadd_ok; clear - Hep Ha1 Hsh; pows; lia).
  destruct (N.ltb_spec (epoch_of E s) (v_activation_epoch v + SHARD_COMMITTEE_PERIOD E)) as [Hsv|Hsv].
  { apply Hno'. intros j w H. destruct (Hun _ _ H) as [-> ->]. destruct H as (_ & _ & _ & _ & _ & _ & H). lia. }
  assert (Hauth : request_authorised E s r i v) by (repeat (split; [first [assumption|apply bytes_eqb_true; exact Hadr]|]); exact Hsv).
  specialize (Hp i). rewrite (run_r _ _ (pending_balance_of s i)) by (apply pending_balance_ok; clear - Hp; pows; lia).
  destruct (N.eqb_spec (elw_amount r) 0) as [Ha|Ha].
  { destruct (N.eqb_spec (pending_balance_of s i) 0) as [Hz|Hz].
    - exists (WExit i). split; [reflexivity|]. split; [|intros j a; split; [discriminate|intros (H & _); contradiction]].
      intros j. split; [intros [= <-]; split; [exact Ha|]; split; [exact Hz|]; eauto|]. intros (_ & _ & w & Hw). destruct (Hun _ _ Hw) as [-> _]. reflexivity.
    - apply (Hno True); [|intros j a (H & _); contradiction]. intros j (_ & Hz' & w & Hw). destruct (Hun _ _ Hw) as [-> _]. contradiction. }
  assert (Hi : i < lenN (balances s)) by (rewrite Hl; eapply nthN_some; eauto). destruct (nthN_lt _ _ Hi) as [b Hb]. rewrite (run_r _ _ b) by (apply idx_ok; exact Hb).
  assert (Hba : balance_at s i = b) by (unfold balance_at; rewrite Hb; reflexivity).
  assert (Hmin : MIN_ACTIVATION_BALANCE E <= 2 ^ 44) by (destruct Hel as (_ & _ & _ & H); clear Hel; etransitivity; [exact H|]; clear - Hctx; ctxs Hctx; pows; lia).
  rewrite (run_r _ _ (MIN_ACTIVATION_BALANCE E + pending_balance_of s i)) by (unfold add; apply uadd_ok; clear - Hmin Hp; pows; lia).
  rewrite compounding_kind.
  destruct (kind_is 2 v && (MIN_ACTIVATION_BALANCE E <=? v_effective_balance v) && (MIN_ACTIVATION_BALANCE E + pending_balance_of s i <? b)) eqn:Hc.
  - apply andb_true_iff in Hc as [Hc H3]. apply andb_true_iff in Hc as [H1 H2]. apply N.leb_le in H2. apply N.ltb_lt in H3.
    rewrite (run_r _ _ (b - MIN_ACTIVATION_BALANCE E)) by (unfold sub; apply usub_ok; lia).
    rewrite (run_r _ _ (b - MIN_ACTIVATION_BALANCE E - pending_balance_of s i)) by (unfold sub; apply usub_ok; lia).
    eexists. split; [reflexivity|]. split; [intros j; split; [discriminate|intros (H & _); contradiction]|].
    assert (Hq' : lenN (pending_partial_withdrawals s) <> PENDING_PARTIAL_WITHDRAWALS_LIMIT E).
    { intros Heq. rewrite Heq, N.eqb_refl in Hq. discriminate. }
    intros j a. split.
    + intros [= <- <-]. split; [exact Ha|]. split; [exact Hq'|]. exists v. rewrite Hba. split; [exact Hauth|]. split; [exact H1|]. split; [exact H2|]. split; [exact H3|apply N.min_comm].
    + intros (_ & _ & w & Hw & _ & _ & _ & ->). destruct (Hun _ _ Hw) as [-> _]. rewrite Hba. f_equal. apply N.min_comm.
  - apply (Hno True); [intros j (H & _); contradiction|]. intros j a (_ & _ & w & Hw & K1 & K2 & K3 & _). destruct (Hun _ _ Hw) as [-> ->]. rewrite Hba in K3.
    apply N.leb_le in K2. apply N.ltb_lt in K3. rewrite K1, K2, K3 in Hc. discriminate.
Qed.
(** the queue entry of a granted partial withdrawal *)
Lemma partial_run s i amount : slot_small s -> active_balance_fits E s ->
  exit_balance_to_consume s < 2 ^ 62 -> amount < 2 ^ 62 -> exit_queue_start E s < 2 ^ 62 ->
  (let* q := compute_exit_epoch_and_update_churn E amount in
   let* w := lift (add E q (MIN_VALIDATOR_WITHDRAWABILITY_DELAY E)) in
   md (fun s => set_pending_partial_withdrawals (pending_partial_withdrawals s ++ [mkPPW i amount w]) s)) s
  = (Ok tt, let q := exit_slot E s amount in
      set_pending_partial_withdrawals (pending_partial_withdrawals s ++ [mkPPW i amount (q + MIN_VALIDATOR_WITHDRAWABILITY_DELAY E)])
        (set_earliest_exit_epoch q (set_exit_balance_to_consume (exit_capacity E s q - amount) s))).
Proof.
  intros Hs Hf Hx Ha Hq. rewrite (run_bind _ _ _ _ _ (compute_exit_epoch_ok E Hctx Hel s amount Hs Hf Hx Ha ltac:(clear - Hq; pows; lia))).
  pose proof (exit_churn_bounds E Hctx Hel s) as Hp.
  assert (Hle : exit_slot E s amount <= exit_queue_start E s + amount).
  { unfold exit_slot. pose proof (churn_epochs_le (exit_churn E s) (exit_queue_budget E s) amount ltac:(lia)). lia. }
  rewrite (run_lift _ _ _ (exit_slot E s amount + MIN_VALIDATOR_WITHDRAWABILITY_DELAY E)).
  - reflexivity.
  - unfold add. apply uadd_ok. clear - Hctx Hle Hq Ha. ctxs Hctx. pows. lia.
Qed.
End Q.

(** ** attesters of several committees *)
Definition votes_from (off : N) (com : list N) (bits : list bool) (v : N) : Prop := exists k, nthN com k = Some v /\ nthN bits (off + k) = Some true.
Lemma rfilter_bits bits off : forall com j, off + j + lenN com <= lenN bits ->
  exists l, rfilter (fun p : N * N => idx bits (off + fst p)) (enumN j com) = Ok l /\ (forall v, In v (map snd l) <-> votes_from (off + j) com bits v).
Proof.
  induction com as [|v com IH]; intros j Hl.
  - exists []. split; [reflexivity|]. intros v. split; [intros []|]. intros (k & Hk & _). rewrite nthN_nil in Hk. discriminate.
  - rewrite lenN_cons in Hl. destruct (IH (j + 1) ltac:(lia)) as (l & H1 & H2). cbn [enumN rfilter fst].
    assert (Hj : off + j < lenN bits) by lia. destruct (nthN_lt _ _ Hj) as [b Hb]. rewrite (proj2 (idx_ok _ _ _) Hb). cbn [rbind]. rewrite H1. cbn [rbind].
    exists (if b then (j, v) :: l else l). split; [destruct b; reflexivity|]. intros w. unfold votes_from in *.
    assert (Htl : (exists k, nthN com k = Some w /\ nthN bits (off + (j + 1) + k) = Some true) <-> exists k, k <> 0 /\ nthN (v :: com) k = Some w /\ nthN bits (off + j + k) = Some true).
    { split.
      - intros (k & A & B). exists (k + 1). split; [lia|]. rewrite nthN_cons. destruct (N.eqb_spec (k + 1) 0); [lia|].
        replace (k + 1 - 1) with k by lia. split; [exact A|]. rewrite <- B. f_equal. lia.
      - intros (k & K & A & B). rewrite nthN_cons in A. destruct (N.eqb_spec k 0); [contradiction|]. exists (k - 1). split; [exact A|]. rewrite <- B. f_equal. lia. }
    specialize (H2 w). rewrite Htl in H2. clear Htl. split.
    + intros Hin. assert (Hc : (b = true /\ w = v) \/ In w (map snd l)) by (destruct b; cbn in Hin; intuition auto). destruct Hc as [[-> ->]|Hc].
      * exists 0. rewrite nthN_0, N.add_0_r. auto.
      * apply H2 in Hc as (k & _ & A & B). eauto.
    + intros (k & A & B). destruct (N.eq_dec k 0) as [->|Hk].
      * rewrite nthN_0 in A. rewrite N.add_0_r, Hb in B. injection A as ->. injection B as ->. left. reflexivity.
      * assert (Hc : In w (map snd l)) by (apply H2; eauto). destruct b; [right|]; exact Hc.
Qed.
Lemma committee_attesters_ok bits off com : off + lenN com <= lenN bits ->
  exists l, committee_attesters bits off com = Ok l /\ (forall v, In v l <-> votes_from off com bits v).
Proof.
  intros H. destruct (rfilter_bits bits off com 0 ltac:(lia)) as (l & H1 & H2). rewrite N.add_0_r in H2. unfold committee_attesters. rewrite H1. cbn [rbind]. eauto.
Qed.
(** as coded: the members of the [m]-th chosen committee are looked up from bit [m] on *)
Lemma attesting_electra_ok (E : Env) s a coms :
  Forall2 (fun c com => get_beacon_committee E s (ad_slot (at_data a)) c = Ok com) (get_committee_indices (at_committee_bits a)) coms ->
  (forall m com, nthN coms m = Some com -> m + lenN com <= lenN (at_aggregation_bits a)) ->
  exists l, get_attesting_indices_electra E s a = Ok l
    /\ forall v, In v l <-> exists m com, nthN coms m = Some com /\ votes_from m com (at_aggregation_bits a) v.
Proof.
  intros HF Hlen. unfold get_attesting_indices_electra. set (bits := at_aggregation_bits a) in *.
  assert (Hgen : forall cs coms j acc, Forall2 (fun c com => get_beacon_committee E s (ad_slot (at_data a)) c = Ok com) cs coms ->
     (forall m com, nthN coms m = Some com -> j + m + lenN com <= lenN bits) ->
     exists l, rfold (fun acc p =>
              let! committee := get_beacon_committee E s (ad_slot (at_data a)) (snd p) in
              let! l := committee_attesters bits (fst p) committee in
              Ok (acc ++ l)) (enumN j cs) acc = Ok l
       /\ forall v, In v l <-> In v acc \/ exists m com, nthN coms m = Some com /\ votes_from (j + m) com bits v).
  { clear HF Hlen. induction cs as [|c cs IH]; intros cms j acc HF Hlen; inversion HF as [|? com ? cms' Hc HF']; subst.
    - exists acc. split; [reflexivity|]. intros v. split; [auto|]. intros [H|(m & com & H & _)]; [exact H|rewrite nthN_nil in H; discriminate].
    - cbn [enumN rfold fst snd]. rewrite Hc. cbn [rbind]. destruct (committee_attesters_ok bits j com) as (l & L1 & L2).
      { specialize (Hlen 0 com). rewrite nthN_0, N.add_0_r in Hlen. auto. }
      rewrite L1. cbn [rbind]. destruct (IH cms' (j + 1) (acc ++ l) HF') as (l' & I1 & I2).
      { intros m com' Hm. specialize (Hlen (m + 1) com'). rewrite nthN_cons in Hlen. destruct (N.eqb_spec (m + 1) 0); [lia|]. replace (m + 1 - 1) with m in Hlen by lia. specialize (Hlen Hm). lia. }
      exists l'. split; [exact I1|]. intros v. rewrite I2, in_app_iff, L2. split.
      + intros [[H|H]|(m & com' & H1 & H2)]; [auto|right; exists 0, com; rewrite N.add_0_r; auto|].
        right. exists (m + 1), com'. split; [rewrite nthN_cons; destruct (N.eqb_spec (m + 1) 0); [lia|]; replace (m + 1 - 1) with m by lia; exact H1|].
        replace (j + (m + 1)) with (j + 1 + m) by lia. exact H2.
      + intros [H|(m & com' & H1 & H2)]; [auto|]. rewrite nthN_cons in H1. destruct (N.eqb_spec m 0) as [->|Hm].
        * injection H1 as <-. rewrite N.add_0_r in H2. auto.
        * right. exists (m - 1), com'. split; [exact H1|]. replace (j + 1 + (m - 1)) with (j + m) by lia. exact H2. }
  destruct (Hgen _ coms 0 [] HF ltac:(intros m com Hm; rewrite N.add_0_l; apply Hlen; exact Hm)) as (l & H1 & H2).
  rewrite H1. cbn [rbind]. exists (dedupN l). split; [reflexivity|]. intros v. rewrite In_dedupN, H2. split; [intros [[]|H]|intros H; right]; exact H.
Qed.
