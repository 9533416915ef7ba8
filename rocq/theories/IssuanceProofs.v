(** * What the blocks of an epoch can mint (proof file; no model definitions) *)
From Verif Require Import Base BaseLemmas Types Ctx Env Helpers HelpersAltair HelpersElectra Block Epoch Transition StLemmas Frame
  SpecCommon SpecShuffle SpecRegistry SpecHelpers SpecElectra SpecOps SpecBlock SpecAtt SpecFlow SpecQueues SpecIssuance HelperProofs HelperProofs2 FrameProofs HistoryProofs AttProofs SlotProofs
  FinalityProofs LookProofs QueueProofs SafetyProofs.
From Coq Require Import Relations Permutation.

(** ** Committee members are active *)
Section Members.
Context (E : Env).
Lemma swap_in l i j l' x : swapN l i j = Ok l' -> In x l' -> In x l.
Proof.
  unfold swapN. intros H. rinv H. subst l'. intros Hx. apply In_nthN in Hx as (k & Hk).
  rewrite !nthN_updN in Hk. destruct (_ && _); [injection Hk as <-; eapply nthN_In; eauto|]. destruct (_ && _); [injection Hk as <-; eapply nthN_In; eauto|].
  eapply nthN_In; eauto.
Qed.
Lemma step_in seed r i j p p' x : pass_step E seed r i j p = Ok p' -> In x (fst (fst p')) -> In x (fst (fst p)).
Proof.
  destruct p as [[inp src] bs]. unfold pass_step. intros H. rinv H.
  match type of H with (if ?c then _ else _) = _ => destruct c end; rinv H; subst p'; cbn [fst]; [|auto].
  eapply swap_in; eauto.
Qed.
Lemma rfold_in {A B} (body : B -> A -> res B) (g : B -> list N) l x : (forall b a b', body b a = Ok b' -> In x (g b') -> In x (g b)) ->
  forall b b', rfold body l b = Ok b' -> In x (g b') -> In x (g b).
Proof.
  intros Hb. induction l as [|a l IH]; cbn [rfold]; intros b b' H; [apply Ok_inj in H; subst; auto|].
  apply rbind_ok_inv in H as (b1 & H1 & H). intros Hx. eapply Hb; [exact H1|]. eapply IH; eauto.
Qed.
Lemma pass_in seed n inp r out x : shuffle_pass E seed n inp r = Ok out -> In x out -> In x inp.
Proof.
  unfold shuffle_pass. intros H. apply rbind_ok_inv in H as (pv & _ & H). cbv zeta in H. apply rbind_ok_inv in H as (b1 & _ & H). apply rbind_ok_inv in H as (p1 & _ & H).
  apply rbind_ok_inv in H as (q1 & F1 & H). destruct q1 as [[l1 s1] y1]. apply rbind_ok_inv in H as (en & _ & H). apply rbind_ok_inv in H as (b2 & _ & H).
  apply rbind_ok_inv in H as (m1 & _ & H). apply rbind_ok_inv in H as (m2 & _ & H). apply rbind_ok_inv in H as (q2 & F2 & H). destruct q2 as [[l2 s2] y2]. apply Ok_inj in H. subst out.
  intros Hx. apply (rfold_in _ (fun p => fst (fst p)) _ x) in F1; [exact F1| |].
  - intros b a b' Hb. apply rbind_ok_inv in Hb as (j & _ & Hb). eapply step_in; exact Hb.
  - cbn [fst]. apply (rfold_in _ (fun p => fst (fst p)) _ x) in F2; [exact F2| |exact Hx].
    intros b a b' Hb. apply rbind_ok_inv in Hb as (j & _ & Hb). apply rbind_ok_inv in Hb as (k & _ & Hb). eapply step_in; exact Hb.
Qed.
Lemma rmap_in {A B} (g : A -> res B) l : forall out y, rmap g l = Ok out -> In y out -> exists a, In a l /\ g a = Ok y.
Proof.
  induction l as [|a l IH]; cbn [rmap]; intros out y H Hy; [apply Ok_inj in H; subst; destruct Hy|].
  apply rbind_ok_inv in H as (b & Hb & H). apply rbind_ok_inv in H as (bs & Hbs & H). apply Ok_inj in H. subst out. destruct Hy as [<-|Hy].
  - exists a. split; [left; reflexivity|exact Hb].
  - destruct (IH _ _ Hbs Hy) as (a' & A1 & A2). exists a'. split; [right; exact A1|exact A2].
Qed.
Lemma firstN_In {A} n (l : list A) x : In x (firstN n l) -> In x l.
Proof. unfold firstN. intros H. rewrite <- (firstn_skipn (N.to_nat n) l). apply in_or_app. left. exact H. Qed.
Lemma skipN_In {A} n (l : list A) x : In x (skipN n l) -> In x l.
Proof. unfold skipN. intros H. rewrite <- (firstn_skipn (N.to_nat n) l). apply in_or_app. right. exact H. Qed.
Lemma committee_in inds seed i c com x : compute_committee E inds seed i c = Ok com -> In x com -> In x inds.
Proof.
  unfold compute_committee. destruct (feat_shuffling E).
  - intros H. apply rbind_ok_inv in H as (sh & Hsh & H). cbv zeta in H. apply rbind_ok_inv in H as (a & _ & H). apply rbind_ok_inv in H as (st & _ & H). apply rbind_ok_inv in H as (i1 & _ & H).
    apply rbind_ok_inv in H as (b & _ & H). apply rbind_ok_inv in H as (en & _ & H). destruct (_ && _); [|discriminate]. apply Ok_inj in H. subst com. intros Hx.
    apply firstN_In, skipN_In in Hx. unfold compute_shuffled_indices in Hsh. destruct inds as [|i0 inds]; [apply Ok_inj in Hsh; subst; exact Hx|].
    apply rbind_ok_inv in Hsh as (z & _ & Hsh). destruct (_ =? 0); [discriminate|]. apply (rfold_in _ (fun l => l) _ x) in Hsh; [exact Hsh| |exact Hx].
    intros l r l'. apply pass_in.
  - intros H. cbv zeta in H. apply rbind_ok_inv in H as (a & _ & H). apply rbind_ok_inv in H as (st & _ & H). apply rbind_ok_inv in H as (i1 & _ & H).
    apply rbind_ok_inv in H as (b & _ & H). apply rbind_ok_inv in H as (en & _ & H). apply rbind_ok_inv in H as (ln & _ & H). intros Hx.
    destruct (rmap_in _ _ _ _ H Hx) as (k & _ & Hk). apply rbind_ok_inv in Hk as (si & _ & Hk). apply idx_ok in Hk. eapply nthN_In; exact Hk.
Qed.
Lemma beacon_committee_in s sl c com x : get_beacon_committee E s sl c = Ok com -> In x com -> In x (active_set s (sl / SLOTS_PER_EPOCH E)).
Proof.
  unfold get_beacon_committee, compute_epoch_at_slot, udiv. destruct (SLOTS_PER_EPOCH E =? 0); [discriminate|]. cbn [rbind]. intros H. apply rbind_ok_inv in H as (cps & _ & H).
  cbv zeta in H. apply rbind_ok_inv in H as (sd & _ & H). apply rbind_ok_inv in H as (r & _ & H). apply rbind_ok_inv in H as (a & _ & H). apply rbind_ok_inv in H as (i & _ & H).
  apply rbind_ok_inv in H as (ct & _ & H). rewrite get_active_ok in H. intros Hx. eapply committee_in; eauto.
Qed.
Lemma select_in bits com x : In x (select_bits bits com) -> In x com.
Proof. intros H. apply In_select_bits in H as (k & _ & H). eapply nthN_In; exact H. Qed.
Lemma attesters_in f s a l x : match f with Electra => get_attesting_indices_electra E s a | _ => get_attesting_indices E s (at_data a) (at_aggregation_bits a) end = Ok l ->
  In x l -> In x (active_set s (ad_slot (at_data a) / SLOTS_PER_EPOCH E)).
Proof.
  assert (G : get_attesting_indices E s (at_data a) (at_aggregation_bits a) = Ok l -> In x l -> In x (active_set s (ad_slot (at_data a) / SLOTS_PER_EPOCH E))).
  { unfold get_attesting_indices. intros H. apply rbind_ok_inv in H as (com & Hcom & H). destruct (negb _); [discriminate|]. apply Ok_inj in H. subst l. intros Hx.
    apply In_dedupN, select_in in Hx. eapply beacon_committee_in; eauto. }
  destruct f; try exact G. unfold get_attesting_indices_electra. intros H. apply rbind_ok_inv in H as (l0 & Hl & H). apply Ok_inj in H. subst l. intros Hx. apply -> In_dedupN in Hx.
  enough (Hg : forall q acc out, rfold (fun acc p => let! committee := get_beacon_committee E s (ad_slot (at_data a)) (snd p) in
              let! l := committee_attesters (at_aggregation_bits a) (fst p) committee in Ok (acc ++ l)) q acc = Ok out ->
     In x out -> In x acc \/ In x (active_set s (ad_slot (at_data a) / SLOTS_PER_EPOCH E))) by (destruct (Hg _ _ _ Hl Hx) as [[]|]; assumption).
  clear. induction q as [|p q IH]; cbn [rfold]; intros acc out H Hx; [apply Ok_inj in H; subst; auto|].
  apply rbind_ok_inv in H as (acc1 & H1 & H). destruct (IH _ _ H Hx) as [Hi|Hi]; [|auto]. apply rbind_ok_inv in H1 as (com & Hcom & H1). apply rbind_ok_inv in H1 as (l & Hl & H1).
  apply Ok_inj in H1. subst acc1. apply in_app_or in Hi as [Hi|Hi]; [auto|]. right. unfold committee_attesters in Hl. apply rbind_ok_inv in Hl as (ps & Hps & Hl). apply Ok_inj in Hl. subst l.
  apply in_map_iff in Hi as (y & <- & Hy). eapply beacon_committee_in; [exact Hcom|].
  assert (Hy' : In y (enumN 0 com)).
  { clear - Hps Hy. revert ps Hps Hy. induction (enumN 0 com) as [|z l IH]; cbn [rfilter]; intros ps H Hy; [apply Ok_inj in H; subst; destruct Hy|].
    apply rbind_ok_inv in H as (b & _ & H). apply rbind_ok_inv in H as (t & Ht & H). apply Ok_inj in H. subst ps. destruct b; [destruct Hy as [<-|Hy]|]; [left; reflexivity|right; eauto..]. }
  clear - Hy'. revert Hy'. generalize 0. induction com as [|z com IH]; intros n H; cbn [enumN] in H; [destruct H|]. destruct H as [<-|H]; [left; reflexivity|right; eapply IH; exact H].
Qed.
End Members.

(** ** Steps that leave balances, queue, flags, slashings and effective balances alone *)
Definition psame (s t : BeaconState) : Prop :=
  (forall i, flags_of (previous_epoch_participation t) i = flags_of (previous_epoch_participation s) i)
  /\ (forall i, flags_of (current_epoch_participation t) i = flags_of (current_epoch_participation s) i).
Definition vkey (v : Validator) : bool * N := (v_slashed v, v_effective_balance v).
Record still (s t : BeaconState) : Prop := mkStill {
  sl_bal : balances t = balances s;
  sl_queue : pending_balance_deposits t = pending_balance_deposits s;
  sl_flags : psame s t;
  sl_keys : map vkey (validators t) = map vkey (validators s) }.
Lemma psame_refl s : psame s s. Proof. split; reflexivity. Qed.
Lemma psame_trans a b c : psame a b -> psame b c -> psame a c.
Proof. intros [A1 A2] [B1 B2]. split; intros i; rewrite ?B1, ?B2; auto. Qed.
Lemma still_refl s : still s s. Proof. constructor; auto using psame_refl. Qed.
Lemma still_trans a b c : still a b -> still b c -> still a c.
Proof. intros [A1 A2 A3 A4] [B1 B2 B3 B4]. constructor; [congruence|congruence|eapply psame_trans; eauto|congruence]. Qed.
Lemma still_mod i g : (forall v, vkey (g v) = vkey v) -> pres still (mod_validator i g).
Proof.
  intros Hg s. unfold mod_validator, sbind, rd, md. destruct (idx (validators s) i) as [v| | |] eqn:Hv; cbn [snd]; try apply still_refl.
  apply idx_ok in Hv. constructor; gs; try reflexivity; [split; gs; reflexivity|]. apply (map_updN_same _ _ _ v); [exact Hv|apply Hg].
Qed.
Ltac st1 :=
  match goal with
  | |- forall _, _ => intro
  | |- pres still (sbind _ _) => apply pres_bind; [exact still_trans| |]
  | |- pres still (rd _) => apply pres_rd; exact still_refl
  | |- pres still (lift _) => apply pres_lift; exact still_refl
  | |- pres still (sret _) => apply pres_ret; exact still_refl
  | |- pres still (swhen _ _) => apply pres_when; [exact still_refl|]
  | |- pres still (sfor _ _) => apply pres_for; [exact still_refl|exact still_trans|]
  | |- pres still (mod_validator _ _) => apply still_mod; intros []; reflexivity
  | |- pres still (match ?x with _ => _ end) => destruct x
  | |- pres still (let _ := _ in _) => cbv zeta
  | |- pres still (md _) => apply pres_md; intro; first [constructor; gs; try reflexivity; split; gs; reflexivity | apply still_refl]
  end.
Ltac st := repeat st1.
Section Still.
Context (E : Env).
Lemma still_churn1 b : pres still (compute_exit_epoch_and_update_churn E b).
Proof. unfold compute_exit_epoch_and_update_churn. st. Qed.
Lemma still_churn2 b : pres still (compute_consolidation_epoch_and_update_churn E b).
Proof. unfold compute_consolidation_epoch_and_update_churn. st. Qed.
Lemma still_exit f i : pres still (initiate_exit E f i).
Proof. destruct f; unfold initiate_exit, initiate_validator_exit, initiate_validator_exit_electra; st; apply still_churn1. Qed.
Lemma still_exit_electra i : pres still (initiate_validator_exit_electra E i).
Proof. apply (still_exit Electra). Qed.
Lemma still_voluntary f op : pres still (process_voluntary_exit E f op).
Proof. unfold process_voluntary_exit. st. apply still_exit. Qed.
Lemma still_bls op : pres still (process_bls_to_execution_change E op).
Proof. unfold process_bls_to_execution_change. st. Qed.
Lemma still_request r : pres still (process_execution_layer_withdrawal_request E r).
Proof. unfold process_execution_layer_withdrawal_request. st; try apply still_exit_electra; try apply still_churn1. Qed.
Lemma still_consolidation op : pres still (process_consolidation E op).
Proof. unfold process_consolidation. st. apply still_churn2. Qed.
Lemma still_header f b : pres still (process_block_header E f b).
Proof. unfold process_block_header. st. Qed.
Lemma still_payload f b : pres still (process_execution_payload E f b).
Proof. unfold process_execution_payload. st. Qed.
Lemma still_randao b : pres still (process_randao E b).
Proof. unfold process_randao. st. Qed.
Lemma still_eth1 b : pres still (process_eth1_data E b).
Proof. unfold process_eth1_data. st. Qed.
Lemma still_attestation0 a : pres still (process_attestation E Phase0 a).
Proof. cbn [process_attestation]. unfold process_attestation_phase0. st. Qed.
End Still.

(** ** Steps that bring in at most a given amount *)
Section Flow.
Context (E : Env) (f : Fork).
Hypothesis Hchk : chk E = true.
Definition paid_for (v : Validator) : N := if v_slashed v then v_effective_balance v / report_quotient E f else 0.
Definition paid (s : BeaconState) : N := sumN (map paid_for (validators s)).
Definition plain (g : N) (s t : BeaconState) : Prop := psame s t /\ wealth t + paid s <= wealth s + paid t + g.
Lemma plain_refl s : plain 0 s s. Proof. split; [apply psame_refl|lia]. Qed.
Lemma plain_trans g h a b c : plain g a b -> plain h b c -> plain (g + h) a c.
Proof. intros [A1 A2] [B1 B2]. split; [eapply psame_trans; eauto|lia]. Qed.
Lemma plain_le g h s t : plain g s t -> g <= h -> plain h s t.
Proof. intros [A1 A2] H. split; [exact A1|lia]. Qed.
Lemma paid_keys s t : map vkey (validators t) = map vkey (validators s) -> paid t = paid s.
Proof.
  intros H. unfold paid. f_equal. replace paid_for with (fun v => (fun k : bool * N => if fst k then snd k / report_quotient E f else 0) (vkey v)) by reflexivity.
  rewrite <- !(map_map vkey (fun k : bool * N => if fst k then snd k / report_quotient E f else 0)), H. reflexivity.
Qed.
Lemma plain_still s t : still s t -> plain 0 s t.
Proof. intros [A1 A2 A3 A4]. split; [exact A3|]. unfold wealth. rewrite A1, A2, (paid_keys s t A4). lia. Qed.

Definition gives {A} (g : N) (m : St BeaconState A) : Prop := forall s a t, m s = (Ok a, t) -> plain g s t.
Lemma gives_still {A} (m : St BeaconState A) : pres still m -> gives 0 m.
Proof. intros H s a t Hm. apply plain_still. specialize (H s). rewrite Hm in H. exact H. Qed.
Lemma gives_bind {A B} g h (m : St BeaconState A) (k : A -> St BeaconState B) : gives g m -> (forall a, gives h (k a)) -> gives (g + h) (sbind m k).
Proof. intros H1 H2 s a t H. apply sbind_ok_inv in H as (x & s1 & A1 & A2). eapply plain_trans; [eapply H1; exact A1|eapply H2; exact A2]. Qed.
Lemma gives_le {A} g h (m : St BeaconState A) : gives g m -> g <= h -> gives h m.
Proof. intros H Hle s a t Hm. eapply plain_le; [eapply H; exact Hm|exact Hle]. Qed.
Lemma gives_for {A} (g : A -> N) l body : (forall x, gives (g x) (body x)) -> gives (sumN (map g l)) (sfor l body).
Proof.
  intros H. induction l as [|x l IH]; cbn [sfor map]; [apply gives_still, pres_ret, still_refl|]. rewrite sumN_cons. apply gives_bind; [apply H|intros _; exact IH].
Qed.
Lemma sum_zero {A} (l : list A) : sumN (map (fun _ => 0) l) = 0.
Proof. induction l as [|x l IH]; cbn [map]; [reflexivity|]. rewrite sumN_cons, IH. reflexivity. Qed.
Lemma gives_for0 {A} (l : list A) body : (forall x, gives 0 (body x)) -> gives 0 (sfor l body).
Proof. intros H. apply (gives_le _ 0 _ (gives_for (fun _ => 0) l body H)). rewrite sum_zero. lia. Qed.
Lemma gives_when c g m : gives g m -> gives g (swhen c m).
Proof. intros H. destruct c; cbn [swhen]; [exact H|]. apply (gives_le 0); [apply gives_still, pres_ret, still_refl|lia]. Qed.

Lemma plain_bal g s bl : sumN bl <= sumN (balances s) + g -> plain g s (set_balances bl s).
Proof. intros H. split; [split; gs; reflexivity|]. unfold wealth, paid. gs. lia. Qed.
Lemma gives_increase i d : gives d (increase_balance E i d).
Proof.
  intros s a t H. unfold increase_balance in H. sinv H. rinv H0. apply (add_exact E _ _ _ Hchk) in H0. subst x. apply plain_bal.
  match goal with H : nthN _ _ = Some _ |- _ => pose proof (sum_updN _ _ _ (x0 + d) H) end. lia.
Qed.
Lemma gives_decrease i d : gives 0 (decrease_balance E i d).
Proof.
  intros s a t H. unfold decrease_balance in H. sinv H. rinv H0. rename x0 into b. apply plain_bal.
  match goal with H : nthN _ _ = Some _ |- _ => pose proof (sum_updN _ _ _ x H) end.
  assert (x <= b); [|lia]. destruct (N.ltb_spec b d); [apply Ok_inj in H0; lia|]. unfold sub, usub in H0. rewrite Hchk in H0. destruct (N.leb_spec d b); [|lia]. apply Ok_inj in H0. lia.
Qed.

(** *** deposits *)
Lemma flags_snoc part i : flags_of (part ++ [0]) i = flags_of part i.
Proof.
  unfold flags_of. destruct (N.lt_ge_cases i (lenN part)) as [H|H]; [rewrite nthN_app_l by exact H; reflexivity|].
  rewrite nthN_app_r by exact H. rewrite (proj2 (nthN_none part i)) by exact H. rewrite nthN_cons. destruct (_ =? 0); [reflexivity|]. destruct (_ - _); reflexivity.
Qed.
Lemma paid_snoc s v : v_slashed v = false -> sumN (map paid_for (validators s ++ [v])) = paid s.
Proof. intros H. unfold paid. rewrite map_app, sumN_app. cbn [map]. unfold paid_for at 2. rewrite H, sumN_cons. change (sumN []) with 0. lia. Qed.
Lemma gives_register pk wc amount : gives amount (add_validator_to_registry E f pk wc amount).
Proof.
  assert (Q : forall l i, queue_total (l ++ [mkPBD i amount]) = queue_total l + amount).
  { intros l i. unfold queue_total. rewrite map_app, sumN_app. cbn [map pbd_amount]. rewrite sumN_cons. change (sumN []) with 0. lia. }
  assert (B : forall l x, sumN (l ++ [x]) = sumN l + x) by (intros l x; rewrite sumN_app, sumN_cons; change (sumN []) with 0; lia).
  intros s a t H. unfold add_validator_to_registry in H. destruct (Fork_eq_dec f Electra) as [Hf|Hf].
  - rewrite Hf in H. sinv H. split; [split; gs; intros; apply flags_snoc|]. unfold wealth. gs. rewrite Q, B. unfold paid at 2. gs.
    rewrite paid_snoc by reflexivity. lia.
  - assert (H' : (let* v := lift (get_validator_from_deposit E pk wc amount) in
      md (fun s => set_balances (balances s ++ [amount]) (set_validators (validators s ++ [v]) s)) ;;
      swhen (fork_le Altair f)
      (md (fun s => set_inactivity_scores (inactivity_scores s ++ [0])
             (set_current_epoch_participation (current_epoch_participation s ++ [0])
             (set_previous_epoch_participation (previous_epoch_participation s ++ [0]) s))))) s = (Ok a, t)) by (destruct f; [exact H..|contradiction]).
    clear H. rename H' into H. sinv H. unfold get_validator_from_deposit in H0. rinv H0. subst x.
    destruct (fork_le Altair f); cbn [swhen] in H; sinv H.
    + split; [split; gs; intros; apply flags_snoc|]. unfold wealth. gs. rewrite B. unfold paid at 2. gs. rewrite paid_snoc by reflexivity. lia.
    + split; [split; gs; intros; reflexivity|]. unfold wealth. gs. rewrite B. unfold paid at 2. gs. rewrite paid_snoc by reflexivity. lia.
Qed.
Lemma gives_queue i amount : gives amount (md (fun s => set_pending_balance_deposits (pending_balance_deposits s ++ [mkPBD i amount]) s)).
Proof.
  intros s a t H. sinv H. split; [split; gs; reflexivity|]. unfold wealth, paid. gs. unfold queue_total. rewrite map_app, sumN_app. cbn [map pbd_amount]. rewrite sumN_cons.
  change (sumN []) with 0. lia.
Qed.
Lemma gives_excess i : gives 0 (queue_excess_active_balance E i).
Proof.
  intros s a t H. unfold queue_excess_active_balance in H. sinv H. apply idx_ok in H0. destruct (N.ltb_spec (MIN_ACTIVATION_BALANCE E) x) as [Hlt|]; [|sinv H; apply plain_refl].
  sinv H. apply ok_or_ok in H1. unfold csub in H1. destruct (_ <=? _); [|discriminate]. injection H1 as <-.
  split; [split; gs; reflexivity|]. unfold wealth, paid. gs. unfold queue_total. rewrite map_app, sumN_app. cbn [map pbd_amount]. rewrite sumN_cons.
  change (sumN []) with 0. pose proof (sum_updN _ _ _ (MIN_ACTIVATION_BALANCE E) H0). lia.
Qed.
Lemma gives_compounding i : gives 0 (switch_to_compounding_validator E i).
Proof.
  unfold switch_to_compounding_validator. apply (gives_bind 0 0); [apply gives_still; st|]. intros v. destruct (has_eth1_withdrawal_credential v); [|apply gives_still; st].
  apply (gives_bind 0 0); [apply gives_still; st|]. intros _. apply gives_excess.
Qed.
Lemma gives_deposit_electra pk wc amount sg : f = Electra -> gives amount (apply_deposit_electra E pk wc amount sg).
Proof.
  intros Hf. unfold apply_deposit_electra. apply (gives_bind 0 amount); [apply gives_still; st|]. intros [i|].
  - apply (gives_le (amount + 0)); [|lia]. apply gives_bind; [apply gives_queue|]. intros _. apply (gives_bind 0 0); [apply gives_still; st|]. intros _.
    apply (gives_bind 0 0); [apply gives_still; st|]. intros v. apply gives_when, gives_compounding.
  - apply (gives_bind 0 amount); [apply gives_still; st|]. intros _. rewrite <- Hf. apply gives_register.
Qed.
Lemma gives_deposit pk wc amount sg : gives amount (apply_deposit E f pk wc amount sg).
Proof.
  unfold apply_deposit. destruct (Fork_eq_dec f Electra) as [Hf|Hf]; [pose proof (gives_deposit_electra pk wc amount sg Hf) as G; destruct f; (exact G || discriminate)|].
  assert (G : gives amount (apply_deposit_phase0 E f pk wc amount sg)); [|destruct f; (exact G || contradiction)].
  unfold apply_deposit_phase0. apply (gives_bind 0 amount); [apply gives_still; st|]. intros [i|]; [apply gives_increase|].
  apply (gives_bind 0 amount); [apply gives_still; st|]. intros d. apply (gives_bind 0 amount); [apply gives_still; st|]. intros [|]; [|apply gives_register].
  apply (gives_le 0); [apply gives_still; st|lia].
Qed.
Lemma gives_process_deposit d : gives (dd_amount (dep_data d)) (process_deposit E f d).
Proof.
  unfold process_deposit. apply (gives_bind 0 _); [apply gives_still; st|]. intros _. apply (gives_bind 0 _); [apply gives_still; st|]. intros i.
  apply (gives_bind 0 _); [apply gives_still; st|]. intros _. apply gives_deposit.
Qed.
Lemma gives_receipt r : f = Electra -> gives (dr_amount r) (process_deposit_receipt E r).
Proof.
  intros Hf. unfold process_deposit_receipt. apply (gives_bind 0 _); [|intros _; apply gives_deposit_electra; exact Hf]. apply gives_still. apply pres_md. intros s.
  destruct (_ =? _); [|apply still_refl]. constructor; gs; try reflexivity. split; gs; reflexivity.
Qed.
Lemma gives_withdrawals p : gives 0 (process_withdrawals E f p).
Proof.
  unfold process_withdrawals. apply (gives_bind 0 0); [apply gives_still; st|]. intros e. cbv zeta. apply (gives_bind 0 0); [apply gives_for0; intros; apply gives_decrease|]. intros _.
  apply gives_still. st.
Qed.

(** *** slashings *)
Lemma paid_slash s i v : nthN (validators s) i = Some v -> v_slashed v = false ->
  sumN (map paid_for (updN (validators s) i (set_v_slashed true v))) = paid s + v_effective_balance v / report_quotient E f.
Proof.
  intros Hv Hs. unfold paid. rewrite map_updN. pose proof (sum_updN (map paid_for (validators s)) i (paid_for v) (paid_for (set_v_slashed true v))) as H.
  rewrite nthN_map, Hv in H. specialize (H eq_refl). assert (H1 : paid_for v = 0) by (unfold paid_for; rewrite Hs; reflexivity).
  assert (H2 : paid_for (set_v_slashed true v) = v_effective_balance v / report_quotient E f) by reflexivity. rewrite H1, H2 in H. rewrite H2. lia.
Qed.
Lemma keys_nth s t i v : map vkey (validators t) = map vkey (validators s) -> nthN (validators s) i = Some v ->
  exists w, nthN (validators t) i = Some w /\ v_slashed w = v_slashed v /\ v_effective_balance w = v_effective_balance v.
Proof.
  intros H Hv. assert (Hk : nthN (map vkey (validators t)) i = Some (vkey v)) by (rewrite H, nthN_map, Hv; reflexivity).
  rewrite nthN_map in Hk. destruct (nthN (validators t) i) as [w|]; [|discriminate]. cbn [option_map] in Hk. injection Hk as H1 H2. eauto.
Qed.
Lemma plain_slash i v s a t : nthN (validators s) i = Some v -> v_slashed v = false -> slash_validator E f i None s = (Ok a, t) -> plain 0 s t.
Proof.
  intros Hv Hs H. unfold slash_validator in H. sinv H.
  match goal with H : initiate_exit E f i s = (_, ?x) |- _ => pose proof (still_exit E f i s) as P; rewrite H in P; cbn [snd] in P; rename x into s1 end.
  destruct (keys_nth s s1 i v (sl_keys _ _ P) Hv) as (v1 & V1 & V2 & V3).
  match goal with H : mod_validator i (set_v_slashed true) s1 = (_, ?x) |- _ => rewrite (mod_validator_run s1 i _ v1 V1) in H; injection H as <- end.
  assert (V1' : i < lenN (validators s1)) by (eapply nthN_some; exact V1).
  match goal with H : mod_validator i (fun _ => _) x3 = (_, ?x) |- _ => rewrite (mod_validator_run x3 i _ (set_v_slashed true v1)) in H; [injection H as _ Hx6|subst x3; gs; apply nthN_updN_eq; exact V1'] end.
  assert (Hx8 : v_effective_balance x8 = v_effective_balance v).
  { apply idx_ok in H6. rewrite <- Hx6 in H6. gsh H6. rewrite nthN_updN_eq in H6 by (subst x3; gs; rewrite lenN_updN; exact V1'). injection H6 as <-. exact V3. }
  assert (S1 : plain 0 x3 (set_slashings (updN (slashings x6) x7 x9) x6)).
  { apply plain_still. rewrite <- Hx6. constructor; gs; try reflexivity; [split; gs; reflexivity|]. apply (map_updN_same _ _ _ (set_v_slashed true v1)); [subst x3; gs; apply nthN_updN_eq; exact V1'|reflexivity]. }
  pose proof (gives_decrease i x10 _ _ _ H9) as S2. pose proof (gives_increase x13 x15 _ _ _ H13) as S3. pose proof (gives_increase x13 x18 _ _ _ H) as S4.
  pose proof (plain_trans _ _ _ _ _ S1 (plain_trans _ _ _ _ _ S2 (plain_trans _ _ _ _ _ S3 S4))) as [Q1 Q2].
  assert (Hw : x14 = v_effective_balance v / report_quotient E f).
  { unfold udiv in H11. destruct (whistleblower_quotient E f =? 0); [discriminate|]. apply Ok_inj in H11. rewrite <- H11, Hx8. unfold whistleblower_quotient, report_quotient. destruct f; reflexivity. }
  assert (Hr : x15 + x18 = x14) by (unfold sub, usub in H14; rewrite Hchk in H14; destruct (N.leb_spec x15 x14); [apply Ok_inj in H14; lia|discriminate]).
  assert (Hp : paid x3 = paid s + x14).
  { rewrite <- H2. unfold paid at 1. gs. rewrite (paid_slash s1 i v1 V1) by congruence. rewrite (paid_keys s s1) by apply P. rewrite V3, Hw. reflexivity. }
  assert (Hwl : wealth x3 = wealth s) by (rewrite <- H2; unfold wealth; gs; rewrite (sl_bal _ _ P), (sl_queue _ _ P); reflexivity).
  split.
  - eapply psame_trans; [apply (sl_flags _ _ P)|]. eapply psame_trans; [|exact Q1]. rewrite <- H2. split; gs; reflexivity.
  - rewrite Hp, Hwl in Q2. lia.
Qed.
Lemma gives_proposer_slashing op : gives 0 (process_proposer_slashing E f op).
Proof.
  intros s a t H. unfold process_proposer_slashing in H. sinv H. unfold proposer_slashing_checks in H0. rinv H0. subst x.
  eapply plain_slash; [| |exact H]; [eassumption|]. match goal with H : is_slashable_validator ?v _ = true |- _ => unfold is_slashable_validator in H; destruct (v_slashed v); [discriminate|reflexivity] end.
Qed.
Lemma gives_fold {A B} (l : list A) (body : B -> A -> St BeaconState B) : (forall b x, gives 0 (body b x)) -> forall b, gives 0 (sfold body l b).
Proof. intros H. induction l as [|x l IH]; intros b; cbn [sfold]; [apply gives_still, pres_ret, still_refl|]. apply (gives_bind 0 0); [apply H|intros; apply IH]. Qed.
Lemma gives_attester_slashing op : gives 0 (process_attester_slashing E f op).
Proof.
  unfold process_attester_slashing. apply (gives_bind 0 0); [apply gives_still; st|]. intros l. apply (gives_bind 0 0); [apply gives_still; st|]. intros c.
  apply (gives_bind 0 0); [|intros b; apply gives_still; st]. apply gives_fold. intros b i s a t H. sinv H. apply idx_ok in H0.
  destruct (is_slashable_validator x c) eqn:Hs; sinv H; [|apply plain_refl]. eapply plain_slash; [exact H0| |eassumption].
  unfold is_slashable_validator in Hs. destruct (v_slashed x); [discriminate|reflexivity].
Qed.

(** *** sync aggregates *)
Hypothesis Hc : ctx_sane E.
Lemma total_active_inv s x : get_total_active_balance E s = Ok x -> x = active_balance E s.
Proof. rewrite get_total_active_balance_ok by exact Hc. destruct (_ <? U64); [|discriminate]. intros H. apply Ok_inj in H. subst x. reflexivity. Qed.
Lemma mul_is x y z : mul E x y = Ok z -> z = x * y.
Proof. unfold mul, umul. rewrite Hchk. destruct (x * y <? U64); intros H; [apply Ok_inj in H; congruence|discriminate]. Qed.
Lemma udiv_is x y z : udiv x y = Ok z -> z = x / y.
Proof. unfold udiv. destruct (y =? 0); intros H; [discriminate|apply Ok_inj in H; congruence]. Qed.
Lemma per_increment_inv s x : get_base_reward_per_increment E s = Ok x -> x = reward_per_increment E s.
Proof.
  unfold get_base_reward_per_increment. intros H. rinv H. apply mul_is in H0. apply total_active_inv in H1. subst. apply udiv_is in H. subst x. reflexivity.
Qed.
Lemma sync_rewards_inv s r : sync_rewards E s = Ok r -> r = (sync_member_reward E s, sync_proposer_reward E s).
Proof.
  unfold sync_rewards. intros H. rinv H. subst r.
  repeat match goal with
  | H : get_total_active_balance E s = Ok _ |- _ => apply total_active_inv in H; subst
  | H : get_base_reward_per_increment E s = Ok _ |- _ => apply per_increment_inv in H; subst
  | H : mul E _ _ = Ok _ |- _ => apply mul_is in H; subst
  | H : udiv _ _ = Ok _ |- _ => apply udiv_is in H; subst
  end. reflexivity.
Qed.
Lemma gives_sync_step a b p : gives (a + b) (sync_step E a b p).
Proof.
  unfold sync_step. destruct (snd p).
  - apply gives_bind; [apply gives_increase|]. intros _. apply (gives_bind 0 b); [apply gives_still; st|]. intros i. apply gives_increase.
  - apply (gives_le 0); [apply gives_decrease|lia].
Qed.
Lemma rmap_len {A B} (g : A -> res B) l : forall out, rmap g l = Ok out -> lenN out = lenN l.
Proof.
  induction l as [|a l IH]; cbn [rmap]; intros out H; [apply Ok_inj in H; subst; reflexivity|]. apply rbind_ok_inv in H as (b & _ & H). apply rbind_ok_inv in H as (bs & Hbs & H).
  apply Ok_inj in H. subst out. rewrite !lenN_cons, (IH _ Hbs). reflexivity.
Qed.
Lemma sum_const {A} c (l : list A) : sumN (map (fun _ => c) l) = lenN l * c.
Proof. induction l as [|x l IH]; cbn [map]; [reflexivity|]. rewrite sumN_cons, lenN_cons, IH. lia. Qed.
Lemma combine_len {A B} (l : list A) (m : list B) : lenN (combine l m) <= lenN l.
Proof. revert m; induction l as [|x l IH]; intros [|y m]; cbn [combine]; rewrite ?lenN_nil, ?lenN_cons; try lia. specialize (IH m). lia. Qed.
Lemma plain_sync sa s a t : process_sync_aggregate E sa s = (Ok a, t) -> plain (sync_pool E s) s t.
Proof.
  intros H. unfold process_sync_aggregate in H. sinv H. apply sync_rewards_inv in H1. subst. cbn [fst snd] in H. unfold sync_indices in H2. apply rmap_len in H2.
  eapply plain_le; [eapply (gives_for (fun _ => sync_member_reward E s + sync_proposer_reward E s)); [|exact H]; intros p; apply gives_sync_step|].
  rewrite sum_const. unfold sync_pool. apply N.mul_le_mono_r. rewrite <- H2. apply combine_len.
Qed.
End Flow.

(** ** What blocks never change within an epoch *)
Section Calm.
Context (E : Env) (f : Fork).
Hypothesis Hchk : chk E = true.
Hypothesis Hc : ctx_sane E.
Record calm (s t : BeaconState) : Prop := mkCalm {
  cm_slot : slot t = slot s;
  cm_len : lenN (validators s) <= lenN (validators t);
  cm_eff : forall i, i < lenN (validators s) -> effective_balance_of t i = effective_balance_of s i;
  cm_slashed : forall i, slashed_in s i = true -> slashed_in t i = true;
  cm_sync : current_sync_committee t = current_sync_committee s }.
Lemma calm_refl s : calm s s. Proof. constructor; auto. lia. Qed.
Lemma calm_trans a b c : calm a b -> calm b c -> calm a c.
Proof. intros [A1 A2 A3 A4 A5] [B1 B2 B3 B4 B5]. constructor; try congruence; [lia| |auto]. intros i Hi. rewrite B3 by lia. apply A3, Hi. Qed.
Lemma calm_same s t : slot t = slot s -> validators t = validators s -> current_sync_committee t = current_sync_committee s -> calm s t.
Proof. intros H1 H2 H3. constructor; unfold effective_balance_of, slashed_in; rewrite ?H2; auto. lia. Qed.
Lemma calm_prim s t : prim E f LBlock s t -> calm s t.
Proof.
  intros H. inversion H; subst; try (apply calm_same; gs; reflexivity).
  - match goal with H : vstep _ _ _ _ _ |- _ => rename H into HV end. match goal with H : nthN _ _ = Some _ |- _ => rename H into Hn end.
    assert (K : v_effective_balance v' = v_effective_balance v /\ (v_slashed v = true -> v_slashed v' = true)) by (inversion HV; subst; gs; auto).
    destruct K as [K1 K2]. assert (Hlt : i < lenN (validators s)) by (eapply nthN_some; exact Hn).
    constructor; gs; try reflexivity; [rewrite lenN_updN; lia|..]; intros j; unfold effective_balance_of, slashed_in; gs; destruct (N.eq_dec i j) as [<-|Hne].
    + rewrite nthN_updN_eq, Hn by exact Hlt. auto.
    + rewrite nthN_updN_ne by congruence. auto.
    + rewrite nthN_updN_eq, Hn by exact Hlt. auto.
    + rewrite nthN_updN_ne by congruence. auto.
  - constructor.
    + unfold register. destruct (fork_le Altair f); gs; reflexivity.
    + rewrite register_validators, lenN_app. lia.
    + intros i Hi. unfold effective_balance_of. rewrite register_validators, nthN_app_l by exact Hi. reflexivity.
    + intros i. unfold slashed_in. rewrite register_validators. destruct (nthN (validators s) i) as [w|] eqn:Hw; [|discriminate].
      rewrite nthN_app_l by (eapply nthN_some; exact Hw). rewrite Hw. auto.
    + unfold register. destruct (fork_le Altair f); gs; reflexivity.
Qed.
Lemma calm_evo s t : evo E f LBlock s t -> calm s t.
Proof. intros H. induction H as [a b Hp|a|a b c H1 IH1 H2 IH2]; [apply calm_prim; exact Hp|apply calm_refl|eapply calm_trans; eauto]. Qed.

(** active sets of the two epochs, stakes and reward units *)
Record level (s t : BeaconState) : Prop := mkLevel {
  lv_calm : calm s t;
  lv_cur : active_set t (epoch_of E t) = active_set s (epoch_of E s);
  lv_prev : active_set t (prev_epoch_of E t) = active_set s (prev_epoch_of E s) }.
Lemma level_refl s : level s s. Proof. constructor; auto using calm_refl. Qed.
Lemma level_trans a b c : level a b -> level b c -> level a c.
Proof. intros [A1 A2 A3] [B1 B2 B3]. constructor; [eapply calm_trans; eauto|congruence..]. Qed.
Lemma level_evo s t : epoch_of E s < FAR_FUTURE_EPOCH -> evo E f LBlock s t -> level s t.
Proof.
  intros He H. pose proof (calm_evo s t H) as K. constructor; [exact K|..]; unfold prev_epoch_of, epoch_of; rewrite (cm_slot _ _ K).
  - apply (lk_active E s t (looks_evo E Hchk f s t (evo_all_of E f LBlock s t H))); unfold epoch_of in *; lia.
  - apply (lk_active E s t (looks_evo E Hchk f s t (evo_all_of E f LBlock s t H))); unfold epoch_of in *; clear - He; revert He; generalize (slot s / SLOTS_PER_EPOCH E) (MAX_SEED_LOOKAHEAD E);
      intros e m He; [|eapply N.le_lt_trans; [|exact He]]; lia.
Qed.
Lemma level_sum s t e : calm s t -> (forall i, In i (active_set s e) -> effective_balance_of t i = effective_balance_of s i).
Proof. intros K i Hi. apply (cm_eff _ _ K). eapply active_lt; exact Hi. Qed.
Lemma level_balance s t : level s t -> active_balance E t = active_balance E s.
Proof.
  intros L. unfold active_balance, effective_sum. rewrite (lv_cur _ _ L). f_equal. f_equal. apply map_ext_in. intros i Hi. eapply level_sum; [apply (lv_calm _ _ L)|exact Hi].
Qed.
Lemma level_reward s t i : level s t -> i < lenN (validators s) -> base_reward E t i = base_reward E s i.
Proof. intros L Hi. unfold base_reward. rewrite (level_balance s t L), (cm_eff _ _ (lv_calm _ _ L)) by exact Hi. reflexivity. Qed.
Lemma level_sync s t : level s t -> sync_pool E t = sync_pool E s.
Proof.
  intros L. unfold sync_pool, sync_proposer_reward, sync_member_reward, reward_per_increment. rewrite (level_balance s t L), (cm_sync _ _ (lv_calm _ _ L)). reflexivity.
Qed.
Lemma level_votes s t : level s t -> psame s t -> open_votes E t = open_votes E s.
Proof.
  intros L [P1 P2]. unfold open_votes. rewrite (lv_cur _ _ L), (lv_prev _ _ L).
  f_equal; f_equal; apply map_ext_in; intros i Hi; unfold missing_weight; rewrite ?P1, ?P2; rewrite (level_reward s t i L) by (eapply active_lt; exact Hi); reflexivity.
Qed.

(** ** the account of a step: what is minted comes out of the open votes, the slashings and [g] *)
Definition minted (g : N) (s t : BeaconState) : Prop :=
  448 * wealth t + open_votes E t + 448 * paid E f s <= 448 * wealth s + open_votes E s + 448 * paid E f t + 448 * g.
Definition mint {A} (g : N) (m : St BeaconState A) : Prop :=
  forall s a t, epoch_of E s < FAR_FUTURE_EPOCH -> m s = (Ok a, t) -> minted g s t /\ slot t = slot s.
Lemma minted_plain g s t : level s t -> plain E f g s t -> minted g s t.
Proof. intros L [P1 P2]. unfold minted. rewrite (level_votes s t L P1). lia. Qed.
Lemma mint_gives {A} g (m : St BeaconState A) : evp E f LBlock m -> gives E f g m -> mint g m.
Proof.
  intros P G s a t He H. specialize (P s). rewrite H in P. cbn [snd] in P. pose proof (level_evo s t He P) as L. split; [|apply (cm_slot _ _ (lv_calm _ _ L))].
  apply minted_plain; [exact L|eapply G; exact H].
Qed.
Lemma minted_trans g h a b c : minted g a b -> minted h b c -> minted (g + h) a c.
Proof. unfold minted. intros. lia. Qed.
Lemma mint_bind {A B} g h (m : St BeaconState A) (k : A -> St BeaconState B) : mint g m -> (forall a, mint h (k a)) -> mint (g + h) (sbind m k).
Proof.
  intros H1 H2 s a t He H. apply sbind_ok_inv in H as (x & s1 & A1 & A2). destruct (H1 _ _ _ He A1) as [B1 B2].
  destruct (H2 x _ _ _ ltac:(unfold epoch_of in *; rewrite B2; exact He) A2) as [C1 C2]. split; [eapply minted_trans; eauto|congruence].
Qed.
Lemma mint_for {A} (l : list A) body : (forall x, mint 0 (body x)) -> mint 0 (sfor l body).
Proof.
  intros H. induction l as [|x l IH]; cbn [sfor]; [|apply (mint_bind 0 0); auto]. intros s a t He H0. sinv H0. split; [unfold minted; lia|reflexivity].
Qed.

(** *** attestations *)
Lemma weight_bits p : new_weight [0; 1; 2] p = (if N.testbit p 0 then 0 else 14) + (if N.testbit p 1 then 0 else 26) + (if N.testbit p 2 then 0 else 14).
Proof. unfold new_weight, new_flags. cbn [filter]. destruct (N.testbit p 0), (N.testbit p 1), (N.testbit p 2); reflexivity. Qed.
Lemma weight_set p k w : In (k, w) FLAG_WEIGHTS -> N.testbit p k = false -> new_weight [0; 1; 2] (N.setbit p k) + w = new_weight [0; 1; 2] p.
Proof.
  intros H Hb. rewrite !weight_bits. unfold FLAG_WEIGHTS in H. cbn [In] in H. rewrite !N.setbit_eqb. destruct H as [[= <- <-]|[[= <- <-]|[[= <- <-]|[]]]]; rewrite Hb;
    change (0 =? 0) with true; change (1 =? 1) with true; change (2 =? 2) with true; change (0 =? 1) with false; change (0 =? 2) with false; change (1 =? 0) with false; change (1 =? 2) with false;
    change (2 =? 0) with false; change (2 =? 1) with false; cbn [orb]; destruct (N.testbit p 0), (N.testbit p 1), (N.testbit p 2); lia.
Qed.
Lemma sum_drop (g h : N -> N) (l : list N) i d : (forall j, h j <= g j) -> h i + d <= g i -> In i l -> sumN (map h l) + d <= sumN (map g l).
Proof.
  intros H1 H2. induction l as [|x l IH]; intros Hi; [destruct Hi|]. cbn [map]. rewrite !sumN_cons. destruct Hi as [->|Hi].
  - assert (sumN (map h l) <= sumN (map g l)); [|lia]. clear - H1. induction l as [|y l IH]; cbn [map]; rewrite ?sumN_cons; [lia|]. specialize (H1 y). lia.
  - specialize (IH Hi). specialize (H1 x). lia.
Qed.
Definition credited (num : N) (s : BeaconState) (num' : N) (t : BeaconState) : Prop :=
  num' + open_votes E t <= num + open_votes E s /\ validators t = validators s /\ slot t = slot s /\ balances t = balances s
  /\ pending_balance_deposits t = pending_balance_deposits s.
Lemma credited_refl n s : credited n s n s. Proof. repeat split; lia. Qed.
Lemma credited_trans n1 s1 n2 s2 n3 s3 : credited n1 s1 n2 s2 -> credited n2 s2 n3 s3 -> credited n1 s1 n3 s3.
Proof. intros (A1 & A2 & A3 & A4 & A5) (B1 & B2 & B3 & B4 & B5). repeat split; try congruence. lia. Qed.
Lemma base_reward_inv s i x : get_base_reward E s i = Ok x -> x = base_reward E s i.
Proof.
  unfold get_base_reward. intros H. rinv H. apply (per_increment_inv E Hchk Hc) in H2. apply udiv_is in H1. apply (mul_is E Hchk) in H. subst.
  unfold base_reward. rewrite (effective_balance_of_some s i _ H0). reflexivity.
Qed.
Definition cohort (b : bool) (s : BeaconState) : list N := active_set s (if b then epoch_of E s else prev_epoch_of E s).
Lemma flag_credited b flags i num k w s num' t : In (k, w) FLAG_WEIGHTS -> In i (cohort b s) ->
  attestation_flag_step E b flags i num (k, w) s = (Ok num', t) -> credited num s num' t.
Proof.
  intros Hkw Hi H. unfold attestation_flag_step in H. cbn [fst snd] in H. destruct (memN k flags); [|sinv H; apply credited_refl].
  sinv H. apply idx_ok in H0. rename x into p. destruct (has_flag p k) eqn:Hp; [sinv H; apply credited_refl|]. rewrite has_flag_bit in Hp. sinv H. rinv H.
  apply base_reward_inv in H1. apply (mul_is E Hchk) in H2. apply (add_exact E _ _ _ Hchk) in H. subst. rewrite add_flag_set in *.
  set (part := participation b s) in *. set (part' := updN part i (N.setbit p k)) in *.
  assert (Hlen : i < lenN part) by (eapply nthN_some; exact H0).
  assert (M : forall j, missing_weight part' j <= missing_weight part j).
  { intros j. unfold missing_weight, flags_of, part'. destruct (N.eq_dec i j) as [<-|Hne]; [|rewrite nthN_updN_ne by congruence; lia].
    rewrite nthN_updN_eq, H0 by exact Hlen. pose proof (weight_set p k w Hkw Hp). lia. }
  assert (M1 : missing_weight part' i + w = missing_weight part i).
  { unfold missing_weight, flags_of, part'. rewrite nthN_updN_eq, H0 by exact Hlen. apply weight_set; assumption. }
  assert (R : base_reward E (set_participation b part' s) i = base_reward E s i) by (destruct b; reflexivity). rewrite R.
  set (u := set_participation b part' s).
  split; [|unfold u; destruct b; repeat split].
  assert (D : sumN (map (fun j => base_reward E s j * missing_weight part' j) (cohort b s)) + base_reward E s i * w <= sumN (map (fun j => base_reward E s j * missing_weight part j) (cohort b s))).
  { apply (sum_drop (fun j => base_reward E s j * missing_weight part j) (fun j => base_reward E s j * missing_weight part' j) (cohort b s) i); [intros j; apply N.mul_le_mono_l, M| |exact Hi].
    cbv beta. rewrite <- N.mul_add_distr_l, M1. apply N.le_refl. }
  unfold open_votes, u, part', part, participation, cohort in *. clear - D. destruct b; unfold set_participation in *; gs.
  - change (base_reward E (set_current_epoch_participation ?x s)) with (base_reward E s).
    change (active_set (set_current_epoch_participation ?x s)) with (active_set s). unfold prev_epoch_of, epoch_of in *. gs. revert D. match goal with |- ?a + ?b <= ?c -> _ => generalize b end. intros. lia.
  - change (base_reward E (set_previous_epoch_participation ?x s)) with (base_reward E s).
    change (active_set (set_previous_epoch_participation ?x s)) with (active_set s). unfold prev_epoch_of, epoch_of in *. gs. revert D. match goal with |- ?a + ?b <= ?c -> _ => generalize b end. intros. lia.
Qed.
Lemma cohort_credited b n s n' t : credited n s n' t -> cohort b t = cohort b s.
Proof. intros (_ & A2 & A3 & _). unfold cohort, active_set, prev_epoch_of, epoch_of. rewrite A2, A3. reflexivity. Qed.
Lemma flags_credited b flags i l : forall num s num' t, (forall p, In p l -> In p FLAG_WEIGHTS) -> In i (cohort b s) ->
  sfold (attestation_flag_step E b flags i) l num s = (Ok num', t) -> credited num s num' t.
Proof.
  induction l as [|[k w] l IH]; cbn [sfold]; intros num s num' t Hl Hi H; [sinv H; apply credited_refl|].
  apply sbind_ok_inv in H as (n1 & s1 & H1 & H). pose proof (flag_credited b flags i num k w s n1 s1 (Hl _ (or_introl eq_refl)) Hi H1) as C1.
  eapply credited_trans; [exact C1|]. eapply IH; [intros p Hp; apply Hl; right; exact Hp| |exact H]. rewrite (cohort_credited b _ _ _ _ C1). exact Hi.
Qed.
Lemma all_credited b flags l : forall num s num' t, (forall i, In i l -> In i (cohort b s)) ->
  sfold (fun num i => sfold (attestation_flag_step E b flags i) FLAG_WEIGHTS num) l num s = (Ok num', t) -> credited num s num' t.
Proof.
  induction l as [|i l IH]; cbn [sfold]; intros num s num' t Hl H; [sinv H; apply credited_refl|].
  apply sbind_ok_inv in H as (n1 & s1 & H1 & H). pose proof (flags_credited b flags i FLAG_WEIGHTS num s n1 s1 (fun p Hp => Hp) (Hl _ (or_introl eq_refl)) H1) as C1.
  eapply credited_trans; [exact C1|]. eapply IH; [|exact H]. intros j Hj. rewrite (cohort_credited b _ _ _ _ C1). apply Hl. right. exact Hj.
Qed.
Lemma checks_cohort a s b flags l i : attestation_checks E f a s = Ok (b, flags, l) -> In i l -> In i (cohort b s).
Proof.
  intros H Hi. unfold attestation_checks in H. cbv zeta in H. apply rbind_ok_inv in H as (b' & Hw & H). apply rbind_ok_inv in H as (u & _ & H). apply rbind_ok_inv in H as (dl & _ & H).
  apply rbind_ok_inv in H as (fl & _ & H). apply rbind_ok_inv in H as (ia & _ & H). apply rbind_ok_inv in H as (u' & _ & H). apply rbind_ok_inv in H as (l' & Hl & H).
  apply Ok_inj in H. injection H as -> -> ->. apply (attesters_in E f s a l i Hl) in Hi.
  unfold attestation_window in Hw. rewrite (previous_epoch_ok E Hc), (current_epoch_ok E Hc), (epoch_at_slot_ok E Hc) in Hw. cbn [rbind] in Hw. cbv zeta in Hw. rinv Hw.
  unfold cohort. apply N.eqb_eq in Hw1. rewrite <- Hw1 in Hi. subst b. destruct (N.eqb_spec (cp_epoch (ad_target (at_data a))) (epoch_of E s)) as [He|He]; [rewrite <- He; exact Hi|].
  rewrite orb_false_r in Hw0. apply N.eqb_eq in Hw0. rewrite <- Hw0. exact Hi.
Qed.
Lemma mint_attestation a : mint 0 (process_attestation E f a).
Proof.
  destruct (Fork_eq_dec f Phase0) as [Hf|Hf].
  { intros s x t He H. pose proof (evp_attestation E f a s) as P. rewrite H in P. cbn [snd] in P. pose proof (level_evo s t He P) as L.
    split; [|apply (cm_slot _ _ (lv_calm _ _ L))]. apply minted_plain; [exact L|]. apply plain_still. pose proof (still_attestation0 E a s) as S. rewrite Hf in H. rewrite H in S. exact S. }
  assert (Hp : process_attestation E f a = process_attestation_altair E f a) by (destruct f; [contradiction|reflexivity..]).
  intros s x t _ H. rewrite Hp in H. unfold process_attestation_altair in H. sinv H. destruct x0 as [[b flags] l]. sinv H.
  match goal with H : sfold _ l 0 s = (Ok ?n, ?u) |- _ => rename H into Hfold; rename n into num; rename u into s1 end.
  pose proof (all_credited b flags l 0 s num s1 (fun i => checks_cohort a s b flags l i H0) Hfold) as (C1 & C2 & C3 & C4 & C5).
  match goal with H : udiv num _ = Ok ?r |- _ => apply udiv_is in H; change ((WEIGHT_DENOMINATOR - PROPOSER_WEIGHT) * WEIGHT_DENOMINATOR / PROPOSER_WEIGHT) with 448 in H; rename r into rw; rename H into Hrw end.
  unfold increase_balance in H. sinv H. rinv H1. apply (add_exact E _ _ _ Hchk) in H1. subst.
  match goal with H : nthN (balances s1) ?p = Some ?b0 |- _ => pose proof (sum_updN _ _ _ (b0 + num / 448) H) as HS end.
  split; [|gs; exact C3]. unfold minted. change (open_votes E (set_balances ?x s1)) with (open_votes E s1). unfold wealth, paid. gs. rewrite C2, C5. rewrite C4 in *.
  pose proof (N.mul_div_le num 448 ltac:(lia)) as HD. revert HS HD C1. generalize (num / 448). intros. lia.
Qed.

(** *** blocks *)
Lemma mint_le {A} g h (m : St BeaconState A) : mint g m -> g <= h -> mint h m.
Proof. intros H Hle s a t He Hm. destruct (H _ _ _ He Hm) as [A1 A2]. split; [unfold minted in *; lia|exact A2]. Qed.
Lemma mint_bind0 {A B} g (m : St BeaconState A) (k : A -> St BeaconState B) : mint 0 m -> (forall a, mint g (k a)) -> mint g (sbind m k).
Proof. intros H1 H2. exact (mint_bind 0 g m k H1 H2). Qed.
Lemma mint_operations b : mint (sumN (map (fun d => dd_amount (dep_data d)) (bb_deposits b)) + sumN (map dr_amount (ep_deposit_receipts (bb_execution_payload b)))) (process_operations E f b).
Proof.
  unfold process_operations. set (D := sumN (map (fun d => dd_amount (dep_data d)) (bb_deposits b))). set (R := sumN (map dr_amount (ep_deposit_receipts (bb_execution_payload b)))).
  apply mint_bind0; [apply mint_gives; [fr|apply gives_still; st]|]. intros _.
  apply mint_bind0; [apply mint_gives; [fr|apply gives_for0; intros; apply gives_proposer_slashing; assumption]|]. intros _.
  apply mint_bind0; [apply mint_gives; [fr|apply gives_for0; intros; apply gives_attester_slashing; assumption]|]. intros _.
  apply mint_bind0; [apply mint_for; intros; apply mint_attestation|]. intros _.
  apply mint_bind; [apply mint_gives; [fr|apply gives_for; intros; apply gives_process_deposit; assumption]|]. intros _.
  apply mint_bind0; [apply mint_gives; [fr|apply gives_for0; intros; apply gives_still, still_voluntary]|]. intros _.
  apply mint_bind0.
  { destruct (fork_le Capella f) eqn:Hf; cbn [swhen]; (apply mint_gives; [|apply gives_still; st; apply still_bls]); fr; apply evp_bls_change; exact Hf. }
  intros _. destruct (fork_le Electra f) eqn:Hf; cbn [swhen]; [|apply (mint_le 0); [apply mint_gives; [fr|apply gives_still; st]|lia]].
  assert (Hel : f = Electra) by (clear - Hf; destruct f; (discriminate || reflexivity)).
  apply mint_bind0; [apply mint_gives; [fr|apply gives_for0; intros; apply gives_still, still_request]|]. intros _.
  apply (mint_le (R + 0)); [|lia]. apply mint_bind; [apply mint_gives; [fr; apply evp_receipt; exact Hel|apply gives_for; intros; apply gives_receipt; assumption]|]. intros _.
  apply mint_gives; [fr|apply gives_for0; intros; apply gives_still, still_consolidation].
Qed.
Lemma minted_block b s t : epoch_of E s < FAR_FUTURE_EPOCH -> process_block E f b s = (Ok tt, t) -> minted (brought_in b + sync_pool E s) s t /\ level s t.
Proof.
  intros He H. pose proof (evp_block E f b s) as P. rewrite H in P. cbn [snd] in P. pose proof (level_evo s t He P) as L. split; [|exact L].
  unfold process_block in H. cbv zeta in H. set (body := bk_body b) in *.
  set (m1 := process_block_header E f b ;; (match f with Phase0 | Altair => sret tt | Bellatrix => let* en := rd (fun s => Ok (is_execution_enabled E s body)) in swhen en (process_execution_payload E f body)
     | _ => process_withdrawals E f (bb_execution_payload body) ;; process_execution_payload E f body end) ;; process_randao E body ;; process_eth1_data E body ;; process_operations E f body).
  assert (K : exists s1, m1 s = (Ok tt, s1) /\ swhen (fork_le Altair f) (process_sync_aggregate E (bb_sync_aggregate body)) s1 = (Ok tt, t)).
  { apply sbind_ok_inv in H as ([] & a1 & A1 & H). apply sbind_ok_inv in H as ([] & a2 & A2 & H). apply sbind_ok_inv in H as ([] & a3 & A3 & H). apply sbind_ok_inv in H as ([] & a4 & A4 & H).
    apply sbind_ok_inv in H as ([] & a5 & A5 & H). exists a5. split; [|exact H]. unfold m1. rewrite (run_bind _ _ _ _ _ A1), (run_bind _ _ _ _ _ A2), (run_bind _ _ _ _ _ A3), (run_bind _ _ _ _ _ A4). exact A5. }
  destruct K as (s1 & K1 & K2). clear H.
  assert (M1 : mint (brought_in b) m1).
  { unfold m1. apply mint_bind0; [apply mint_gives; [fr|apply gives_still, still_header]|]. intros _. apply mint_bind0.
    { assert (G : mint 0 (process_withdrawals E f (bb_execution_payload body) ;; process_execution_payload E f body)).
      { apply mint_bind0; [apply mint_gives; [fr|apply gives_withdrawals; assumption]|]. intros _. apply mint_gives; [fr|apply gives_still, still_payload]. }
      destruct (Fork_eq_dec f Bellatrix) as [Hb|Hb].
      - assert (G1 : mint 0 (let* en := rd (fun s => Ok (is_execution_enabled E s body)) in swhen en (process_execution_payload E f body))).
        { apply mint_gives; [fr|apply gives_still; st; apply still_payload]. }
        clear - Hb G1. destruct f; (discriminate || exact G1).
      - assert (G0 : mint 0 (sret tt)) by (apply mint_gives; [fr|apply gives_still; st]). clear - Hb G G0. destruct f; (contradiction || exact G0 || exact G). }
    intros _. apply mint_bind0; [apply mint_gives; [fr|apply gives_still, still_randao]|]. intros _. apply mint_bind0; [apply mint_gives; [fr|apply gives_still, still_eth1]|]. intros _.
    apply mint_operations. }
  destruct (M1 s tt s1 He K1) as [N1 N2].
  assert (P1 : evp E f LBlock m1) by (unfold m1; fr). specialize (P1 s). rewrite K1 in P1. cbn [snd] in P1. pose proof (level_evo s s1 He P1) as L1.
  eapply minted_trans; [exact N1|]. rewrite <- (level_sync s s1 L1).
  assert (He1 : epoch_of E s1 < FAR_FUTURE_EPOCH) by (unfold epoch_of in *; rewrite N2; exact He).
  destruct (fork_le Altair f); cbn [swhen] in K2; [|unfold sret in K2; injection K2 as <-; unfold minted; clear; lia].
  apply minted_plain; [|eapply plain_sync; eassumption]. apply level_evo; [exact He1|]. pose proof (evp_sync E f (bb_sync_aggregate body) s1) as Q. rewrite K2 in Q. exact Q.
Qed.
End Calm.

(** ** A whole epoch *)
Section Epoch.
Context (E : Env) (f : Fork).
Hypothesis Hchk : chk E = true.
Hypothesis Hc : ctx_sane E.

Record held (s t : BeaconState) : Prop := mkHeld {
  hd_epoch : epoch_of E t = epoch_of E s; hd_validators : validators t = validators s; hd_balances : balances t = balances s;
  hd_queue : pending_balance_deposits t = pending_balance_deposits s; hd_prev : previous_epoch_participation t = previous_epoch_participation s;
  hd_cur : current_epoch_participation t = current_epoch_participation s; hd_sync : current_sync_committee t = current_sync_committee s }.
Lemma process_slot_held s r t : process_slot E f s = (r, t) -> held s t.
Proof.
  intros H. unfold process_slot, sbind, rd, md in H.
  repeat match type of H with context [match ?m with Ok _ => _ | _ => _ end] => destruct m end; injection H as <- <-; gs;
    try (constructor; reflexivity); repeat match goal with |- context [if ?c then _ else _] => destruct c end; constructor; unfold epoch_of; gs; reflexivity.
Qed.
Lemma slot_held s t : slot s + 1 < 2 ^ 64 -> process_slots E f (slot s + 1) s = (Ok tt, t) -> epoch_of E t = epoch_of E s -> held s t.
Proof.
  intros Hs H He. assert (Adv : advance_slot E f s = (Ok tt, t)).
  { rewrite process_slots_loop in H by lia. replace (N.to_nat (slot s + 1 - slot s)) with 1%nat in H by lia. rewrite loop_step in H by lia. apply sbind_ok_inv in H as ([] & s1 & H1 & H).
    rewrite loop_done in H; [injection H as <-; exact H1|]. rewrite (advance_slot_succ E Hc f s s1); [lia| |exact H1]. pows; lia. }
  assert (HU : slot s + 1 < U64) by (rewrite U64_val; exact Hs). destruct (advance_inv E Hc f s t HU Adv) as (s1 & s2 & P1 & S1 & P2 & S2 & Et).
  destruct (N.eqb_spec ((slot s + 1) mod SLOTS_PER_EPOCH E) 0) as [Hm|Hm].
  { exfalso. assert (Hz : SLOTS_PER_EPOCH E <> 0) by (ctxs Hc; lia). unfold epoch_of in He. rewrite Et in He. revert He. gs. rewrite S2. intros He. pose proof (N.div_mod' (slot s + 1) (SLOTS_PER_EPOCH E)) as B1.
    pose proof (N.div_mod' (slot s) (SLOTS_PER_EPOCH E)) as B2. rewrite Hm, He in B1. clear - B1 B2. lia. }
  subst s2. destruct (process_slot_held s (Ok tt) s1 P1) as [A1 A2 A3 A4 A5 A6 A7].
  constructor; [exact He|subst t; gs; assumption..].
Qed.
Lemma held_wealth s t : held s t -> wealth t = wealth s.
Proof. intros []. unfold wealth. congruence. Qed.
Lemma held_paid s t : held s t -> paid E f t = paid E f s.
Proof. intros []. unfold paid. congruence. Qed.
Lemma held_pool s t : held s t -> sync_pool E t = sync_pool E s.
Proof.
  intros []. unfold sync_pool, sync_proposer_reward, sync_member_reward, reward_per_increment, active_balance, effective_sum, active_set, effective_balance_of.
  rewrite hd_epoch0, hd_validators0, hd_sync0. reflexivity.
Qed.
Lemma held_votes s t : held s t -> open_votes E t = open_votes E s.
Proof.
  intros []. unfold open_votes, base_reward, active_balance, effective_sum, active_set, effective_balance_of, prev_epoch_of.
  rewrite hd_epoch0, hd_validators0, hd_prev0, hd_cur0. reflexivity.
Qed.

Definition total_in (bs : list BeaconBlock) : N := sumN (map brought_in bs).
Record inv (s : BeaconState) (bs : list BeaconBlock) (t : BeaconState) : Prop := mkInv {
  iv_epoch : epoch_of E t = epoch_of E s;
  iv_len : lenN (validators s) <= lenN (validators t);
  iv_eff : forall i, i < lenN (validators s) -> effective_balance_of t i = effective_balance_of s i;
  iv_slashed : forall i, slashed_in s i = true -> slashed_in t i = true;
  iv_pool : sync_pool E t = sync_pool E s;
  iv_mint : minted E f (total_in bs + lenN bs * sync_pool E s) s t }.
Lemma inv_all s bs t : epoch_of E s < FAR_FUTURE_EPOCH -> same_epoch E f s bs t -> inv s bs t.
Proof.
  intros He H. induction H as [|bs t u H IH Hs P Hu|bs b t u H IH P].
  - constructor; auto; [apply N.le_refl|]. unfold minted, total_in. cbn [map]. change (sumN []) with 0. change (lenN (@nil BeaconBlock)) with 0. lia.
  - destruct IH as [I1 I2 I3 I4 I5 I6]. pose proof (slot_held t u Hs P ltac:(congruence)) as Hd.
    constructor; try congruence.
    + rewrite (hd_validators _ _ Hd). exact I2.
    + unfold effective_balance_of in *. rewrite (hd_validators _ _ Hd). exact I3.
    + unfold slashed_in in *. rewrite (hd_validators _ _ Hd). exact I4.
    + rewrite (held_pool _ _ Hd). exact I5.
    + unfold minted in *. rewrite (held_wealth _ _ Hd), (held_paid _ _ Hd), (held_votes _ _ Hd). exact I6.
  - destruct IH as [I1 I2 I3 I4 I5 I6]. rewrite <- I1 in He. destruct (minted_block E f Hchk Hc b t u He P) as [M L]. pose proof (lv_calm _ _ _ L) as [C1 C2 C3 C4 C5].
    constructor.
    + unfold epoch_of in *. rewrite C1. exact I1.
    + lia.
    + intros i Hi. rewrite C3 by lia. apply I3, Hi.
    + auto.
    + rewrite (level_sync E _ _ L). exact I5.
    + pose proof (minted_trans E f _ _ _ _ _ I6 M) as G. rewrite I5 in G.
      replace (total_in (bs ++ [b]) + lenN (bs ++ [b]) * sync_pool E s) with (total_in bs + lenN bs * sync_pool E s + (brought_in b + sync_pool E s)); [exact G|].
      unfold total_in. rewrite map_app, sumN_app, lenN_app. change (lenN [b]) with 1. cbn [map]. change (sumN [brought_in b]) with (brought_in b + 0). lia.
Qed.

Definition report_of (s : BeaconState) (i : N) : N := if slashed_in s i then effective_balance_of s i / report_quotient E f else 0.
Lemma report_out s i : lenN (validators s) <= i -> report_of s i = 0.
Proof. intros H. unfold report_of, slashed_in. rewrite (proj2 (nthN_none _ _) H). reflexivity. Qed.
Lemma paid_range s n : paid E f s = sumN (map (report_of s) (rangeN (lenN (validators s) + n))).
Proof.
  induction n as [|n IH] using N.peano_ind.
  - rewrite N.add_0_r. unfold paid. f_equal. apply nthN_ext. intros i.
    destruct (N.lt_ge_cases i (lenN (validators s))) as [Hi|Hi].
    + destruct (nthN_lt _ _ Hi) as (v & Hv). rewrite (nthN_map _ _ _), (nthN_map _ _ _), nthN_rangeN by exact Hi. rewrite Hv. cbn [option_map]. f_equal.
      unfold report_of, paid_for, slashed_in, effective_balance_of. rewrite Hv. reflexivity.
    + rewrite (proj2 (nthN_none (map (paid_for E f) _) i)), (proj2 (nthN_none (map (report_of s) _) i)); [reflexivity|rewrite lenN_map, ?lenN_rangeN; exact Hi..].
  - rewrite N.add_succ_r, <- N.add_1_r, rangeN_succ, map_app, sumN_app, <- IH. cbn [map]. rewrite report_out by lia. change (sumN [0]) with 0. lia.
Qed.
Lemma reports_sum (p q : N -> bool) (g : N -> N) l : (forall i, In i l -> q i = true -> p i = true) ->
  sumN (map (fun i => if p i then g i else 0) l) = sumN (map (fun i => if q i then g i else 0) l) + sumN (map g (filter (fun i => p i && negb (q i)) l)).
Proof.
  induction l as [|x l IH]; cbn [map filter]; intros H; [reflexivity|]. rewrite !sumN_cons, IH by (intros i Hi; apply H; right; exact Hi). pose proof (H x (or_introl eq_refl)) as Hx.
  destruct (p x), (q x); cbn [andb negb map]; rewrite ?sumN_cons; try lia; discriminate (Hx eq_refl).
Qed.
Lemma paid_reports s bs t : inv s bs t -> paid E f t = paid E f s + report_rewards E f s t.
Proof.
  intros [_ Hl He Hs _ _]. rewrite (paid_range t 0), N.add_0_r. replace (lenN (validators t)) with (lenN (validators s) + (lenN (validators t) - lenN (validators s))) at 1 by lia.
  rewrite (paid_range s (lenN (validators t) - lenN (validators s))). replace (lenN (validators s) + (lenN (validators t) - lenN (validators s))) with (lenN (validators t)) by lia.
  unfold report_rewards. unfold report_of at 1. rewrite (reports_sum (slashed_in t) (slashed_in s) (fun i => effective_balance_of t i / report_quotient E f)) by (intros i _; apply Hs).
  f_equal. f_equal. apply map_ext_in. intros i _. unfold report_of. destruct (slashed_in s i) eqn:Hi; [|reflexivity]. rewrite He; [reflexivity|].
  unfold slashed_in in Hi. destruct (nthN (validators s) i) eqn:Hv; [eapply nthN_some; exact Hv|discriminate].
Qed.
Lemma epoch_issuance s bs t : epoch_of E s < FAR_FUTURE_EPOCH -> same_epoch E f s bs t ->
  448 * wealth t + open_votes E t <= 448 * (wealth s + total_in bs + report_rewards E f s t + lenN bs * sync_pool E s) + open_votes E s.
Proof.
  intros He H. pose proof (inv_all s bs t He H) as I. pose proof (paid_reports s bs t I) as P. pose proof (iv_mint _ _ _ I) as M. unfold minted in M. lia.
Qed.
End Epoch.
