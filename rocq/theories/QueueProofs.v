(** * Proofs about the electra queues *)
From Verif Require Import Base BaseLemmas Types Ctx Env Helpers HelpersAltair HelpersElectra Block Epoch StLemmas Frame
  SpecCommon SpecShuffle SpecHelpers SpecElectra SpecOps SpecBlock SpecAtt SpecEpoch SpecUpgrade SpecFlow SpecQueues
  HelperProofs HelperProofs2 OpsProofs ElectraProofs SlashProofs AttProofs EpochProofs RegistryProofs FlowProofs UpgradeProofs.
From Coq Require Import Sorted.

(** ** lists *)
Lemma firstN_0 {A} (l : list A) : firstN 0 l = []. Proof. reflexivity. Qed.
Lemma firstN_succ {A} (x : A) l k : firstN (k + 1) (x :: l) = x :: firstN k l.
Proof. unfold firstN. replace (N.to_nat (k + 1)) with (S (N.to_nat k)) by lia. reflexivity. Qed.
Lemma skipN_succ {A} (x : A) l k : skipN (k + 1) (x :: l) = skipN k l.
Proof. unfold skipN. replace (N.to_nat (k + 1)) with (S (N.to_nat k)) by lia. reflexivity. Qed.
Lemma skipN_0 {A} (l : list A) : skipN 0 l = l. Proof. reflexivity. Qed.
Lemma firstN_skipN {A} k (l : list A) : firstN k l ++ skipN k l = l. Proof. apply firstn_skipn. Qed.
Lemma skipN_nil_iff {A} k (l : list A) : k <= lenN l -> (skipN k l = [] <-> k = lenN l).
Proof.
  intros Hk. unfold skipN, lenN in *. split; intros H.
  - apply (f_equal (@length A)) in H. rewrite skipn_length in H. cbn in H. lia.
  - apply skipn_all2. lia.
Qed.
Lemma sum_updN : forall l i b x, nthN l i = Some b -> sumN (updN l i x) + b = sumN l + x.
Proof.
  induction l as [|y l IH]; intros i b x H; [discriminate|]. rewrite nthN_cons in H. cbn [updN]. destruct (N.eqb_spec i 0).
  - injection H as ->. rewrite !sumN_cons. lia.
  - rewrite !sumN_cons. specialize (IH (i - 1) b x H). lia.
Qed.
Lemma In_le_sum b l : In b l -> b <= sumN l.
Proof. induction l as [|y l IH]; [intros []|]. rewrite sumN_cons. intros [->|H]; [lia|specialize (IH H); lia]. Qed.
Lemma sum_credit i d l : i < lenN l -> sumN (credit i d l) = sumN l + d.
Proof. intros Hi. destruct (nthN_lt _ _ Hi) as [b Hb]. unfold credit. rewrite Hb. pose proof (sum_updN l i b (b + d) Hb). lia. Qed.
Lemma sum_debit i d l b : nthN l i = Some b -> d <= b -> sumN (debit i d l) + d = sumN l.
Proof. intros Hb Hd. unfold debit. rewrite Hb. pose proof (sum_updN l i b (b - d) Hb). lia. Qed.
Lemma queue_total_nil : queue_total [] = 0. Proof. reflexivity. Qed.
Lemma queue_total_one d : queue_total [d] = pbd_amount d. Proof. unfold queue_total. cbn [map]. rewrite sumN_cons. apply N.add_0_r. Qed.
Lemma queue_total_cons d l : queue_total (d :: l) = pbd_amount d + queue_total l. Proof. reflexivity. Qed.
Lemma queue_total_app l k : queue_total (l ++ k) = queue_total l + queue_total k.
Proof. unfold queue_total. rewrite map_app. apply sumN_app. Qed.
Lemma covered_cons b d l k : pbd_amount d <= b -> covered (b - pbd_amount d) l k -> covered b (d :: l) (k + 1).
Proof.
  intros Hd (H1 & H2 & H3). unfold covered. rewrite lenN_cons, !firstN_succ, !queue_total_cons. split; [lia|]. split; [lia|]. intros Hk. specialize (H3 ltac:(lia)). lia.
Qed.

Section Q.
Variable E : Env.
Hypothesis Hctx : ctx_sane E.
Hypothesis Hel : ctx_sane_electra E.

(** ** pending balance deposits *)
Definition credited (l : list PendingBalanceDeposit) (bs : list N) : list N := fold_left (fun b d => credit (pbd_index d) (pbd_amount d) b) l bs.
Lemma len_credited l : forall bs, lenN (credited l bs) = lenN bs.
Proof. induction l as [|d l IH]; intros bs; [reflexivity|]. change (credited (d :: l) bs) with (credited l (credit (pbd_index d) (pbd_amount d) bs)). rewrite IH. apply lenN_credit. Qed.
Lemma sum_credited l : forall bs, (forall d, In d l -> pbd_index d < lenN bs) -> sumN (credited l bs) = sumN bs + queue_total l.
Proof.
  induction l as [|d l IH]; intros bs H; [rewrite queue_total_nil; cbn [credited fold_left]; lia|]. change (credited (d :: l) bs) with (credited l (credit (pbd_index d) (pbd_amount d) bs)). rewrite IH.
  - rewrite sum_credit by (apply H; left; reflexivity). rewrite queue_total_cons. lia.
  - intros x Hx. rewrite lenN_credit. apply H. right; exact Hx.
Qed.
Lemma nth_credited l : forall bs i b, nthN bs i = Some b -> nthN (credited l bs) i = Some (b + queued_for l i).
Proof.
  induction l as [|d l IH]; intros bs i b Hb; [cbn [credited fold_left]; rewrite Hb; change (queued_for [] i) with 0; f_equal; lia|]. change (credited (d :: l) bs) with (credited l (credit (pbd_index d) (pbd_amount d) bs)).
  assert (Hc : nthN (credit (pbd_index d) (pbd_amount d) bs) i = Some (b + if pbd_index d =? i then pbd_amount d else 0)).
  { rewrite nthN_credit, (N.eqb_sym (pbd_index d)). destruct (N.eqb_spec i (pbd_index d)) as [<-|]; [rewrite Hb; reflexivity|rewrite Hb; f_equal; lia]. }
  rewrite (IH _ _ _ Hc). f_equal. unfold queued_for. cbn [filter]. destruct (pbd_index d =? i); cbn [map]; rewrite ?sumN_cons; lia.
Qed.
Lemma deposits_loop : forall l s av p n,
  (forall d, In d l -> pbd_index d < lenN (balances s)) -> sumN (balances s) + queue_total l < U64 -> p + queue_total l < U64 -> p <= av ->
  exists k, covered (av - p) l k
    /\ pending_deposits_loop E l av p n s = (Ok (p + queue_total (firstN k l), n + k), set_balances (credited (firstN k l) (balances s)) s).
Proof.
  induction l as [|d l IH]; intros s av p n Hr Hf Hp Hav.
  - exists 0. split; [unfold covered; rewrite firstN_0, queue_total_nil; change (lenN (@nil PendingBalanceDeposit)) with 0; lia|]. rewrite firstN_0, queue_total_nil. cbn [credited fold_left pending_deposits_loop]. rewrite !N.add_0_r, set_balances_id. reflexivity.
  - rewrite queue_total_cons in Hf, Hp. cbn [pending_deposits_loop]. rewrite (run_lift _ _ _ (p + pbd_amount d)) by (unfold add; apply uadd_ok; lia).
    destruct (N.ltb_spec av (p + pbd_amount d)) as [Hlt|Hge].
    + exists 0. split.
      * unfold covered. rewrite lenN_cons. split; [lia|]. split; [rewrite firstN_0, queue_total_nil; lia|]. intros _. rewrite firstN_succ, firstN_0, queue_total_one. lia.
      * rewrite firstN_0, queue_total_nil. cbn [credited fold_left]. rewrite !N.add_0_r, set_balances_id. reflexivity.
    + assert (Hi : pbd_index d < lenN (balances s)) by (apply Hr; left; reflexivity).
      rewrite (run_bind _ _ _ _ _ (run_increase E s (pbd_index d) (pbd_amount d) Hi ltac:(intros b Hb; apply In_le_sum in Hb; lia))).
      destruct (IH (set_balances (credit (pbd_index d) (pbd_amount d) (balances s)) s) av (p + pbd_amount d) (n + 1)) as (k & H1 & H2).
      * intros x Hx. gs. rewrite lenN_credit. apply Hr. right; exact Hx.
      * gs. rewrite sum_credit by exact Hi. lia.
      * lia.
      * exact Hge.
      * exists (k + 1). split.
        -- apply covered_cons; [lia|]. replace (av - p - pbd_amount d) with (av - (p + pbd_amount d)) by lia. exact H1.
        -- rewrite H2, firstN_succ, queue_total_cons. gs. rewrite !N.add_assoc, <- (N.add_assoc n 1 k), (N.add_comm 1 k), N.add_assoc. reflexivity.
Qed.
Lemma pending_deposits_run s : slot_small s -> active_balance_fits E s -> queue_sound s -> deposit_balance_to_consume s < 2 ^ 62 ->
  exists k, let q := pending_balance_deposits s in covered (deposit_budget E s) q k
    /\ process_pending_balance_deposits E s
       = (Ok tt, set_deposit_balance_to_consume (if k =? lenN q then 0 else deposit_budget E s - queue_total (firstN k q))
                  (set_pending_balance_deposits (skipN k q) (set_balances (credited (firstN k q) (balances s)) s))).
Proof.
  intros Hs Hab (Hl & Hr & Hf) Hd. cbv zeta. unfold process_pending_balance_deposits. pose proof (exit_churn_bounds E Hctx Hel s) as Hb.
  rewrite (run_rd _ _ _ (deposit_budget E s)).
  2:{ rewrite (exit_churn_ok E Hctx) by exact Hab. cbn [rbind]. unfold add. apply uadd_ok. clear - Hd Hb. pows. lia. }
  rewrite (run_rd _ _ _ (pending_balance_deposits s)) by reflexivity.
  destruct (deposits_loop (pending_balance_deposits s) s (deposit_budget E s) 0 0 Hr) as (k & H1 & H2).
  { change U64 with (2 ^ 64). exact Hf. } { change U64 with (2 ^ 64). clear - Hf. pows. lia. } { lia. }
  rewrite N.sub_0_r in H1. exists k. split; [exact H1|]. rewrite (run_bind _ _ _ _ _ H2). cbn [fst snd]. rewrite run_md, !N.add_0_l.
  rewrite (run_rd _ _ _ (if k =? lenN (pending_balance_deposits s) then 0 else deposit_budget E s - queue_total (firstN k (pending_balance_deposits s)))).
  - reflexivity.
  - gs. destruct H1 as (K1 & K2 & _). pose proof (skipN_nil_iff k (pending_balance_deposits s) K1) as Hn.
    destruct (skipN k (pending_balance_deposits s)) as [|x t].
    + rewrite (proj2 (N.eqb_eq _ _)) by (apply Hn; reflexivity). reflexivity.
    + destruct (N.eqb_spec k (lenN (pending_balance_deposits s))) as [He|He]; [apply Hn in He; discriminate|]. unfold sub. apply usub_ok. exact K2.
Qed.

(** ** compounding *)
Lemma compounded_run s i : lenN (balances s) = lenN (validators s) -> i < lenN (validators s) ->
  switch_to_compounding_validator E i s = (Ok tt, compounded E i s).
Proof.
  intros Hl Hi. destruct (nthN_lt _ _ Hi) as [v Hv]. assert (Hi' : i < lenN (balances s)) by lia. destruct (nthN_lt _ _ Hi') as [b Hb].
  unfold switch_to_compounding_validator, compounded. rewrite Hv, Hb. rewrite (run_rd _ _ _ v) by (apply idx_ok; exact Hv). rewrite eth1_kind.
  destruct (kind_is 1 v); [|reflexivity]. rewrite (run_bind _ _ _ _ _ (mod_validator_ok s i _ v Hv)).
  rewrite (queue_excess_run E _ i b) by (gs; exact Hb). gs. destruct (MIN_ACTIVATION_BALANCE E <? b); reflexivity.
Qed.
Lemma len_compounded s i : lenN (validators (compounded E i s)) = lenN (validators s) /\ lenN (balances (compounded E i s)) = lenN (balances s).
Proof.
  unfold compounded. destruct (nthN (validators s) i) as [v|]; [|split; reflexivity]. destruct (nthN (balances s) i) as [b|]; [|split; reflexivity].
  destruct (kind_is 1 v); [|split; reflexivity]. destruct (_ <? _); gs; rewrite ?lenN_updN; split; reflexivity.
Qed.
Definition total_stake (s : BeaconState) : N := sumN (balances s) + queue_total (pending_balance_deposits s).
Lemma total_compounded s i : total_stake (compounded E i s) = total_stake s.
Proof.
  unfold compounded, total_stake. destruct (nthN (validators s) i) as [v|]; [|reflexivity]. destruct (nthN (balances s) i) as [b|] eqn:Hb; [|reflexivity].
  destruct (kind_is 1 v); [|reflexivity]. destruct (N.ltb_spec (MIN_ACTIVATION_BALANCE E) b); gs; [|reflexivity].
  rewrite queue_total_app, queue_total_one. cbn [pbd_amount].
  pose proof (sum_updN _ _ _ (MIN_ACTIVATION_BALANCE E) Hb). lia.
Qed.
(** everything except credentials, balances and the deposit queue stays *)
Lemma compounded_frame s i : compounded E i s
    = set_pending_balance_deposits (pending_balance_deposits (compounded E i s)) (set_balances (balances (compounded E i s)) (set_validators (validators (compounded E i s)) s))
  /\ (forall j v, nthN (validators s) j = Some v -> exists wc, nthN (validators (compounded E i s)) j = Some (set_v_withdrawal_credentials wc v))
  /\ (forall d, In d (pending_balance_deposits (compounded E i s)) -> In d (pending_balance_deposits s) \/ pbd_index d = i /\ i < lenN (balances s)).
Proof.
  assert (Hid : forall j v, nthN (validators s) j = Some v -> exists wc, nthN (validators s) j = Some (set_v_withdrawal_credentials wc v)).
  { intros j v Hv. exists (v_withdrawal_credentials v). rewrite Hv. destruct v; reflexivity. }
  assert (Hss : s = set_pending_balance_deposits (pending_balance_deposits s) (set_balances (balances s) (set_validators (validators s) s))) by (destruct s; reflexivity).
  unfold compounded. destruct (nthN (validators s) i) as [v|] eqn:Hv; [|auto]. destruct (nthN (balances s) i) as [b|] eqn:Hb; [|auto].
  destruct (kind_is 1 v); [|auto]. cbv zeta.
  assert (Hpt : forall j w, nthN (validators s) j = Some w ->
     exists wc, nthN (updN (validators s) i (set_v_withdrawal_credentials (2 :: skipn 1 (v_withdrawal_credentials v)) v)) j = Some (set_v_withdrawal_credentials wc w)).
  { intros j w Hw. destruct (N.eq_dec j i) as [->|Hne].
    - assert (v = w) by congruence. subst w. rewrite nthN_updN_eq by (eapply nthN_some; eauto). eexists. reflexivity.
    - rewrite nthN_updN_ne by congruence. apply Hid. exact Hw. }
  destruct (MIN_ACTIVATION_BALANCE E <? b); gs; (split; [destruct s; reflexivity|]); (split; [exact Hpt|]); intros d Hd; [|auto].
  apply in_app_or in Hd as [Hd|[<-|[]]]; [auto|]. right. cbn. split; [reflexivity|]. eapply nthN_some; eauto.
Qed.

(** ** pending consolidations *)
Definition dueb (s : BeaconState) (c : PendingConsolidation) : bool :=
  match nthN (validators s) (pc_source_index c) with Some v => v_slashed v || (v_withdrawable_epoch v <=? epoch_of E s) | None => false end.
Lemma dueb_iff s c : dueb s c = true <-> consolidation_due E s c.
Proof.
  unfold dueb, consolidation_due. destruct (nthN (validators s) (pc_source_index c)) as [v|].
  - rewrite orb_true_iff, N.leb_le. split; [intros H; exists v; auto|intros (w & Hw & H); injection Hw as <-; exact H].
  - split; [discriminate|intros (w & Hw & _); discriminate].
Qed.
Fixpoint due_count (s : BeaconState) (l : list PendingConsolidation) : N :=
  match l with [] => 0 | c :: t => if dueb s c then due_count s t + 1 else 0 end.
Lemma due_count_spec s l : due_count s l <= lenN l /\ (forall c, In c (firstN (due_count s l) l) -> dueb s c = true)
  /\ (forall c, nthN l (due_count s l) = Some c -> dueb s c = false).
Proof.
  induction l as [|c l (IH1 & IH2 & IH3)]; [cbn [due_count]; split; [lia|]; split; [intros c []|intros c H; rewrite nthN_nil in H; discriminate]|].
  cbn [due_count]. destruct (dueb s c) eqn:Hd.
  - rewrite lenN_cons, firstN_succ. split; [lia|]. split; [intros x [<-|Hx]; auto|]. intros x Hx. rewrite nthN_cons in Hx. destruct (N.eqb_spec (due_count s l + 1) 0); [lia|].
    replace (due_count s l + 1 - 1) with (due_count s l) in Hx by lia. auto.
  - split; [lia|]. split; [intros x []|]. intros x Hx. rewrite nthN_0 in Hx. injection Hx as <-. exact Hd.
Qed.
(** the state relation kept by the loop *)
Definition same_queue (s s' : BeaconState) : Prop :=
  slot s' = slot s /\ lenN (validators s') = lenN (validators s) /\ lenN (balances s') = lenN (balances s)
  /\ (forall j v, nthN (validators s) j = Some v -> exists wc, nthN (validators s') j = Some (set_v_withdrawal_credentials wc v))
  /\ total_stake s' = total_stake s /\ pending_consolidations s' = pending_consolidations s.
Lemma nth_len_none {A B} (l : list A) (k : list B) i : lenN k = lenN l -> nthN l i = None -> nthN k i = None.
Proof. intros Hl H. apply nthN_none in H. apply nthN_none. lia. Qed.
Lemma same_queue_due s s' : same_queue s s' -> forall c, dueb s' c = dueb s c.
Proof.
  intros (H1 & H2 & _ & H4 & _) c. unfold dueb. destruct (nthN (validators s) (pc_source_index c)) as [v|] eqn:Hv.
  - destruct (H4 _ _ Hv) as [wc ->]. unfold epoch_of. rewrite H1. destruct v; reflexivity.
  - rewrite (nth_len_none _ _ _ H2 Hv). reflexivity.
Qed.
Lemma due_count_ext s s' l : (forall c, dueb s' c = dueb s c) -> due_count s' l = due_count s l.
Proof. intros H. induction l as [|c l IH]; [reflexivity|]. cbn [due_count]. rewrite H, IH. reflexivity. Qed.
Lemma compounded_same s i : same_queue s (compounded E i s).
Proof.
  destruct (compounded_frame s i) as (Hf & Hv & _). destruct (len_compounded s i) as [L1 L2]. split; [rewrite Hf; reflexivity|]. split; [exact L1|]. split; [exact L2|].
  split; [exact Hv|]. split; [apply total_compounded|]. rewrite Hf. reflexivity.
Qed.
Lemma active_part_ok s i v b : nthN (validators s) i = Some v -> nthN (balances s) i = Some b -> get_active_balance E s i = Ok (active_part E s i) /\ active_part E s i <= b.
Proof.
  intros Hv Hb. unfold get_active_balance, active_part, balance_at. rewrite (proj2 (idx_ok _ _ _) Hv), (proj2 (idx_ok _ _ _) Hb), Hv, Hb. cbn [rbind].
  rewrite max_effective_kind. split; [reflexivity|lia].
Qed.
Lemma consolidated_same s c : lenN (balances s) = lenN (validators s) -> pc_source_index c < lenN (validators s) -> pc_target_index c < lenN (validators s) ->
  same_queue s (consolidated E s c).
Proof.
  intros Hl Hsrc Htgt. unfold consolidated. destruct (nthN_lt _ _ Hsrc) as [v Hv]. rewrite Hv. destruct (v_slashed v).
  { split; [reflexivity|]. split; [reflexivity|]. split; [reflexivity|]. split; [|split; reflexivity]. intros j w Hw. exists (v_withdrawal_credentials w). rewrite Hw. destruct w; reflexivity. }
  cbv zeta. destruct (compounded_same s (pc_target_index c)) as (H1 & H2 & H3 & H4 & H5 & H6). set (s1 := compounded E (pc_target_index c) s) in *.
  destruct (H4 _ _ Hv) as [wc Hv1]. assert (Hi : pc_source_index c < lenN (balances s1)) by lia. destruct (nthN_lt _ _ Hi) as [b Hb].
  destruct (active_part_ok s1 _ _ _ Hv1 Hb) as [_ Hle]. set (a := active_part E s1 (pc_source_index c)) in *.
  split; [exact H1|]. split; [exact H2|]. split; [gs; rewrite lenN_credit, lenN_debit; exact H3|]. split; [exact H4|]. split; [|exact H6].
  rewrite <- H5. unfold total_stake. gs. rewrite sum_credit by (rewrite lenN_debit; lia). pose proof (sum_debit _ _ _ _ Hb Hle). lia.
Qed.
Lemma same_queue_trans s1 s2 s3 : same_queue s1 s2 -> same_queue s2 s3 -> same_queue s1 s3.
Proof.
  intros (A1 & A2 & A3 & A4 & A5 & A6) (B1 & B2 & B3 & B4 & B5 & B6). split; [congruence|]. split; [congruence|]. split; [congruence|]. split; [|split; congruence].
  intros j v Hv. destruct (A4 _ _ Hv) as [wc Hw]. destruct (B4 _ _ Hw) as [wc' Hw']. exists wc'. rewrite Hw'. destruct v; reflexivity.
Qed.
Lemma consolidated_run s c v : lenN (balances s) = lenN (validators s) -> total_stake s < U64 ->
  nthN (validators s) (pc_source_index c) = Some v -> v_slashed v = false -> pc_target_index c < lenN (validators s) ->
  forall (k : St BeaconState N), sbind (switch_to_compounding_validator E (pc_target_index c)) (fun _ =>
        let* ab := rd (fun s => get_active_balance E s (pc_source_index c)) in
        decrease_balance E (pc_source_index c) ab ;;
        increase_balance E (pc_target_index c) ab ;; k) s = k (consolidated E s c).
Proof.
  intros Hl Hf Hv Hsl Ht k. rewrite (run_bind _ _ _ _ _ (compounded_run s (pc_target_index c) Hl Ht)). unfold consolidated. rewrite Hv, Hsl. cbv zeta.
  destruct (compounded_same s (pc_target_index c)) as (H1 & H2 & H3 & H4 & H5 & H6). set (s1 := compounded E (pc_target_index c) s) in *.
  destruct (H4 _ _ Hv) as [wc Hv1]. assert (Hi : pc_source_index c < lenN (balances s1)) by (rewrite H3, Hl; eapply nthN_some; eauto). destruct (nthN_lt _ _ Hi) as [b Hb].
  destruct (active_part_ok s1 _ _ _ Hv1 Hb) as [Ha Hle]. rewrite (run_rd _ _ _ (active_part E s1 (pc_source_index c))) by exact Ha. set (a := active_part E s1 (pc_source_index c)) in *.
  rewrite (run_bind _ _ _ _ _ (run_decrease E s1 _ a Hi)).
  rewrite (run_bind _ _ _ _ _ (run_increase E (set_balances (debit (pc_source_index c) a (balances s1)) s1) (pc_target_index c) a
      ltac:(gs; rewrite lenN_debit; lia) ltac:(gs; intros x Hx; apply In_le_sum in Hx; pose proof (sum_debit _ _ _ _ Hb Hle); unfold total_stake in *; lia))).
  reflexivity.
Qed.
Lemma consolidations_loop : forall l s n, lenN (balances s) = lenN (validators s) -> total_stake s < U64 ->
  (forall c, In c l -> pc_source_index c < lenN (validators s) /\ pc_target_index c < lenN (validators s)) ->
  pending_consolidations_loop E l n s = (Ok (n + due_count s l), fold_left (consolidated E) (firstN (due_count s l) l) s)
  /\ same_queue s (fold_left (consolidated E) (firstN (due_count s l) l) s).
Proof.
  assert (Hrefl : forall s, same_queue s s).
  { intros s. split; [reflexivity|]. split; [reflexivity|]. split; [reflexivity|]. split; [|split; reflexivity]. intros j w Hw. exists (v_withdrawal_credentials w). rewrite Hw. destruct w; reflexivity. }
  induction l as [|c l IH]; intros s n Hl Hf Hr.
  - cbn [due_count pending_consolidations_loop]. rewrite firstN_0, N.add_0_r. split; [reflexivity|apply Hrefl].
  - destruct (Hr c (or_introl eq_refl)) as [Hs Ht]. destruct (nthN_lt _ _ Hs) as [v Hv]. cbn [pending_consolidations_loop due_count].
    rewrite (run_rd _ _ _ v) by (apply idx_ok; exact Hv). pose proof (consolidated_same s c Hl Hs Ht) as Hsame.
    assert (Hstep : forall m, dueb s c = true -> (fold_left (consolidated E) (firstN (due_count s l) l) (consolidated E s c) = m) ->
      fold_left (consolidated E) (firstN (due_count s l + 1) (c :: l)) s = m) by (intros m _ <-; rewrite firstN_succ; reflexivity).
    pose proof (same_queue_due s _ Hsame) as Hdue. pose proof (due_count_ext s _ l Hdue) as Hcnt.
    assert (Hrest : forall n', pending_consolidations_loop E l n' (consolidated E s c)
        = (Ok (n' + due_count s l), fold_left (consolidated E) (firstN (due_count s l) l) (consolidated E s c))
        /\ same_queue s (fold_left (consolidated E) (firstN (due_count s l) l) (consolidated E s c))).
    { intros n'. destruct (IH (consolidated E s c) n') as [I1 I2].
      - destruct Hsame as (_ & A2 & A3 & _). congruence.
      - destruct Hsame as (_ & _ & _ & _ & A5 & _). rewrite A5. exact Hf.
      - intros x Hx. destruct Hsame as (_ & A2 & _). rewrite A2. apply Hr. right; exact Hx.
      - rewrite Hcnt in I1, I2. split; [exact I1|]. eapply same_queue_trans; [exact Hsame|exact I2]. }
    assert (Hdd : dueb s c = v_slashed v || (v_withdrawable_epoch v <=? epoch_of E s)) by (unfold dueb; rewrite Hv; reflexivity).
    destruct (v_slashed v) eqn:Hsl.
    + rewrite Hdd. cbn [orb]. rewrite firstN_succ. cbn [fold_left].
      assert (Hc : consolidated E s c = s) by (unfold consolidated; rewrite Hv, Hsl; reflexivity). rewrite Hc in *.
      destruct (Hrest (n + 1)) as [R1 R2]. rewrite R1. split; [f_equal; f_equal; lia|exact R2].
    + rewrite (run_rd _ _ _ (epoch_of E s)) by (apply (current_epoch_ok E Hctx)). rewrite Hdd. cbn [orb].
      destruct (N.ltb_spec (epoch_of E s) (v_withdrawable_epoch v)) as [Hlt|Hge].
      * destruct (N.leb_spec (v_withdrawable_epoch v) (epoch_of E s)); [lia|]. rewrite firstN_0, N.add_0_r. split; [reflexivity|apply Hrefl].
      * destruct (N.leb_spec (v_withdrawable_epoch v) (epoch_of E s)); [|lia]. rewrite firstN_succ. cbn [fold_left].
        destruct (Hrest (n + 1)) as [R1 R2]. split; [|exact R2]. rewrite (consolidated_run s c v Hl Hf Hv Hsl Ht). rewrite R1. f_equal. f_equal. lia.
Qed.
Lemma consolidations_run s : queue_sound s -> consolidations_sound s ->
  exists k, due_prefix E s k
    /\ process_pending_consolidations E s
       = (Ok tt, let s' := fold_left (consolidated E) (firstN k (pending_consolidations s)) s in set_pending_consolidations (skipN k (pending_consolidations s)) s')
    /\ same_queue s (fold_left (consolidated E) (firstN k (pending_consolidations s)) s).
Proof.
  intros (Hl & _ & Hf) Hc. exists (due_count s (pending_consolidations s)).
  destruct (due_count_spec s (pending_consolidations s)) as (D1 & D2 & D3). split.
  { split; [exact D1|]. split; [intros c Hx; apply dueb_iff; auto|]. intros c Hx Hd. apply dueb_iff in Hd. rewrite (D3 c Hx) in Hd. discriminate. }
  unfold process_pending_consolidations. rewrite (run_rd _ _ _ (pending_consolidations s)) by reflexivity.
  destruct (consolidations_loop (pending_consolidations s) s 0 Hl Hf Hc) as [H1 H2]. rewrite N.add_0_l in H1. split; [|exact H2].
  rewrite (run_bind _ _ _ _ _ H1). cbv zeta. unfold md. f_equal. f_equal. destruct H2 as (_ & _ & _ & _ & _ & ->). reflexivity.
Qed.
End Q.
