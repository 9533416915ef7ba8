(** * Caps on voting weight along a history (proof file; no model definitions) *)
From Verif Require Import Base BaseLemmas Types Ctx Env Helpers HelpersAltair HelpersElectra Block Epoch Transition Upgrade StLemmas
  SpecCommon SpecHelpers SpecEpoch SpecFinality SpecCapped Frame FrameProofs HelperProofs HelperProofs2 EpochProofs BlockProofs SlotProofs CrashProofs DepositProofs SpecHistory HistoryProofs.

Section W.
Variable E : Env.
Hypothesis Hs : caps_sane E.
Definition all_weighed (f : Fork) (s : BeaconState) : Prop := forall i v, nthN (validators s) i = Some v -> well_weighed E f v.
Lemma min_multiple b c : c mod EFFECTIVE_BALANCE_INCREMENT E = 0 -> N.min (b - b mod EFFECTIVE_BALANCE_INCREMENT E) c mod EFFECTIVE_BALANCE_INCREMENT E = 0.
Proof.
  intros H. destruct Hs as (Hi & _). destruct (N.min_spec (b - b mod EFFECTIVE_BALANCE_INCREMENT E) c) as [[_ ->]|[_ ->]]; [|exact H].
  assert (X : forall i q r, b = i * q + r -> b - r = q * i) by (intros i q r ->; rewrite N.add_sub; apply N.mul_comm).
  rewrite (X _ _ _ (N.div_mod b (EFFECTIVE_BALANCE_INCREMENT E) Hi)). apply N.mod_mul. exact Hi.
Qed.
Lemma cap_multiple f v : balance_cap E f v mod EFFECTIVE_BALANCE_INCREMENT E = 0.
Proof. destruct Hs as (_ & _ & _ & A & B & C). unfold balance_cap. destruct f; try exact A. destruct (kind_is 2 v); [exact C|exact B]. Qed.
Lemma cap_least f v : MAX_EFFECTIVE_BALANCE E <= balance_cap E f v.
Proof. destruct Hs as (_ & A & B & _). unfold balance_cap. destruct f; try apply N.le_refl. destruct (kind_is 2 v); [|exact A]. eapply N.le_trans; eauto. Qed.
Lemma step_cap f c v v' : vstep E f c v v' -> balance_cap E f v <= balance_cap E f v' /\ v_effective_balance v' = v_effective_balance v.
Proof.
  intros H. inversion H; subst; split; try reflexivity; try apply N.le_refl.
  - unfold balance_cap. destruct f; try apply N.le_refl. unfold kind_is. gs. unfold cred_prefix in *. destruct (v_withdrawal_credentials v) as [|b l]; [discriminate|]. subst b. apply N.le_refl.
  - destruct Hs as (_ & _ & A & _). unfold balance_cap, kind_is. gs. change (nthN (2 :: skipn 1 (v_withdrawal_credentials v)) 0) with (Some 2). change (2 =? 2) with true. cbv iota. destruct (match nthN (v_withdrawal_credentials v) 0 with Some _ => _ | None => _ end); [apply N.le_refl|exact A].
Qed.
Lemma weighed_upd f s i v v' : all_weighed f s -> nthN (validators s) i = Some v -> well_weighed E f v' -> all_weighed f (set_validators (updN (validators s) i v') s).
Proof.
  intros H Hv Hw j w. gs. rewrite nthN_updN. destruct ((j =? i) && (i <? lenN (validators s))); [intros [= <-]; exact Hw|apply H].
Qed.
Lemma weighed_same f s t : validators t = validators s -> all_weighed f s -> all_weighed f t.
Proof. intros H A i v. rewrite H. apply A. Qed.
Lemma weighed_prim f l s t : prim E f l s t -> all_weighed f s -> all_weighed f t.
Proof.
  intros H A. inversion H; subst; try (apply (weighed_same f s); [gs; reflexivity|exact A]).
  - eapply weighed_upd; [exact A|eassumption|]. match goal with H : vstep _ _ _ _ _ |- _ => destruct (step_cap _ _ _ _ H) as [B1 B2] end.
    match goal with H : nthN _ _ = Some _ |- _ => destruct (A _ _ H) as [A1 A2] end. split; rewrite B2; [eapply N.le_trans; eauto|exact A2].
  - eapply weighed_upd; [exact A|eassumption|]. rewrite (cap_eq E f v). split; [apply N.le_min_r|apply min_multiple, cap_multiple].
  - match goal with H : new_validator _ _ |- _ => destruct H as (_ & _ & _ & _ & _ & x & Hx) end. intros i w Hw.
    assert (Hr : validators (register f v b s) = validators s ++ [v]) by (unfold register; destruct (fork_le Altair f); reflexivity). rewrite Hr in Hw.
    destruct (N.lt_ge_cases i (lenN (validators s))) as [Hl|Hl]; [rewrite nthN_app_l in Hw by exact Hl; exact (A i w Hw)|].
    rewrite nthN_app_r in Hw by exact Hl. assert (w = v) as -> by (apply nthN_In in Hw as [->|[]]; reflexivity).
    split; rewrite Hx; [eapply N.le_trans; [apply N.le_min_r|apply cap_least]|apply min_multiple; apply Hs].
Qed.
(** the upgrade to electra leaves a weight as it is or takes it to zero *)
Definition drops (s t : BeaconState) : Prop := forall i v', nthN (validators t) i = Some v' -> exists v, nthN (validators s) i = Some v /\ (v_effective_balance v' = v_effective_balance v \/ v_effective_balance v' = 0).
Lemma drops_refl s : drops s s. Proof. intros i v H. eauto. Qed.
Lemma drops_trans a b c : drops a b -> drops b c -> drops a c.
Proof. intros A B i v H. destruct (B i v H) as (w & Hw & D). destruct (A i w Hw) as (x & Hx & D'). exists x. split; [exact Hx|]. destruct D as [D|D]; [rewrite D; exact D'|right; exact D]. Qed.
Lemma drops_same s t : validators t = validators s -> drops s t. Proof. intros H i v. rewrite H. eauto. Qed.
Lemma drops_md g : (forall s, validators (g s) = validators s) -> pres drops (md g). Proof. intros H s. apply drops_same, H. Qed.
Lemma drops_mod i g : (forall v, v_effective_balance (g v) = v_effective_balance v \/ v_effective_balance (g v) = 0) -> pres drops (mod_validator i g).
Proof.
  intros Hg s. unfold mod_validator, sbind, rd, md, idx. destruct (nthN (validators s) i) as [v|] eqn:Hv; cbn [expect snd]; [|apply drops_refl]. intros j w. gs. rewrite nthN_updN.
  destruct ((j =? i) && (i <? lenN (validators s))) eqn:Hj; [|eauto]. intros [= <-]. apply andb_true_iff in Hj as [Hj _]. apply N.eqb_eq in Hj. subst j. eauto.
Qed.
Lemma drops_rd {A} (r : BeaconState -> res A) : pres drops (rd r). Proof. intros s. apply drops_refl. Qed.
Lemma drops_lift {A} (r : res A) : pres drops (lift r). Proof. intros s. apply drops_refl. Qed.
Lemma drops_finish : pres drops (electra_finish E).
Proof.
  unfold electra_finish, queue_entire_balance_and_reset_validator, queue_excess_active_balance.
  repeat first [apply drops_rd | apply drops_lift | apply drops_md; reflexivity | apply drops_mod; intros ?; right; reflexivity
    | apply (pres_bind drops drops_trans); [|intros ?] | apply (pres_for drops drops_refl drops_trans); intros ? | apply (pres_when drops drops_refl)
    | match goal with |- pres _ (match ?c with _ => _ end) => destruct c end | intros ?; apply drops_refl].
Qed.
Lemma electra_drops s t : upgrade_to_electra E s = Ok t -> drops s t.
Proof.
  intros Hu. unfold upgrade_to_electra in Hu. apply rbind_ok_inv in Hu as (e & _ & Hu). apply rbind_ok_inv in Hu as (ee & _ & Hu). apply rbind_ok_inv in Hu as (ec & _ & Hu).
  set (s0 := electra_base E e ee ec s) in *. destruct (electra_finish E s0) as [r post] eqn:Hp. apply rbind_ok_inv in Hu as (u & _ & Hu). apply Ok_inj in Hu. subst post.
  pose proof (drops_finish s0) as K. rewrite Hp in K. exact K.
Qed.
Lemma cap_fork f g v : f <> Electra -> balance_cap E f v <= balance_cap E g v.
Proof. intros H. assert (X : balance_cap E f v = MAX_EFFECTIVE_BALANCE E) by (destruct f; congruence || reflexivity). rewrite X. apply cap_least. Qed.
Lemma weighed_call p q : call E p q -> all_weighed (fst p) (snd p) -> all_weighed (fst q) (snd q).
Proof.
  intros H A. destruct (call_cases E _ _ H) as [[Hf He]|[(Hf & Hf' & Hu)|[(Hf & Hne & Hn & R)|(Hf & Hf' & Hk)]]].
  - rewrite Hf. revert A. apply (evo_all_inv E (fst p) (all_weighed (fst p))) with (s' := snd q); [|exact He]. intros l s s'. apply weighed_prim.
  - apply upgrade_altair_registry in Hu as (V & _). intros i v Hv. rewrite V in Hv. destruct (A i v Hv) as [A1 A2]. rewrite Hf in A1. rewrite Hf'. split; [exact A1|exact A2].
  - destruct R as (V & _). intros i v Hv. rewrite V in Hv. destruct (A i v Hv) as [A1 A2]. split; [|exact A2]. eapply N.le_trans; [exact A1|]. apply cap_fork.
    intros X. rewrite X in Hf. cbn in Hf. congruence.
  - inversion H; subst; cbn [fst snd] in *; try congruence. intros i v Hv. match goal with H : upgrade_to_electra E s = Ok s' |- _ => destruct (electra_drops s s' H i v Hv) as (w & Hw & D) end.
    destruct (A i w Hw) as [A1 A2]. destruct D as [D|D]; split; rewrite D.
    + eapply N.le_trans; [exact A1|]. exact (cap_least Electra v).
    + exact A2.
    + apply N.le_0_l.
    + apply N.mod_0_l. apply Hs.
Qed.
End W.

(** the upgrade to electra takes the weight of those who were never activated, and of nobody else *)
Section Tame.
Variable E : Env.
Definition tame (s t : BeaconState) : Prop :=
  (forall i v, nthN (validators s) i = Some v -> exists v', nthN (validators t) i = Some v' /\ v_activation_epoch v' = v_activation_epoch v /\ v_exit_epoch v' = v_exit_epoch v
     /\ (v_effective_balance v' = v_effective_balance v \/ v_activation_epoch v = FAR_FUTURE_EPOCH))
  /\ lenN (validators t) = lenN (validators s).
Lemma tame_same s t : validators t = validators s -> tame s t. Proof. intros H. split; rewrite H; [|reflexivity]. intros i v Hv. exists v. auto. Qed.
Lemma tame_refl s : tame s s. Proof. apply tame_same. reflexivity. Qed.
Lemma tame_trans a b c : tame a b -> tame b c -> tame a c.
Proof.
  intros [A1 A2] [B1 B2]. split; [|congruence]. intros i v Hv. destruct (A1 i v Hv) as (w & Hw & P1 & P2 & P3). destruct (B1 i w Hw) as (x & Hx & Q1 & Q2 & Q3).
  exists x. repeat split; [exact Hx|congruence|congruence|]. destruct P3 as [P3|P3]; [|right; exact P3]. destruct Q3 as [Q3|Q3]; [left; congruence|right; congruence].
Qed.
Lemma tame_md g : (forall s, validators (g s) = validators s) -> pres tame (md g). Proof. intros H s. apply tame_same, H. Qed.
Lemma tame_rd {A} (r : BeaconState -> res A) : pres tame (rd r). Proof. intros s. apply tame_refl. Qed.
Lemma tame_lift {A} (r : res A) : pres tame (lift r). Proof. intros s. apply tame_refl. Qed.
Lemma tame_reset s i v : nthN (validators s) i = Some v -> v_activation_epoch v = FAR_FUTURE_EPOCH -> tame s (snd (queue_entire_balance_and_reset_validator i s)).
Proof.
  intros Hv Hf. unfold queue_entire_balance_and_reset_validator. unfold sbind at 1, rd at 1.
  destruct (idx (balances s) i) as [b| | |]; try apply tame_refl.
  unfold sbind at 1, md at 1. erewrite run_bind; [|apply mod_validator_run; gs; exact Hv].
  unfold md. cbn [snd]. split; gs; [|apply lenN_updN]. intros j w Hw. rewrite nthN_updN. destruct ((j =? i) && (i <? lenN (validators s))) eqn:Hj; [|exists w; auto].
  apply andb_true_iff in Hj as [Hj _]. apply N.eqb_eq in Hj. subst j. assert (w = v) as -> by congruence. eexists. split; [reflexivity|]. gs. auto.
Qed.
Lemma tame_resets l : forall s, (forall p, In p l -> nthN (map v_activation_epoch (validators s)) (snd p) = Some FAR_FUTURE_EPOCH) ->
  tame s (snd (sfor l (fun p : N * N => queue_entire_balance_and_reset_validator (snd p)) s)).
Proof.
  induction l as [|p l IH]; intros s Hl; [apply tame_refl|]. rewrite sfor_cons.
  pose proof (Hl p (or_introl eq_refl)) as Hp. rewrite nthN_map in Hp. destruct (nthN (validators s) (snd p)) as [v|] eqn:Hv; [|discriminate].
  assert (Hk : tame s (snd (queue_entire_balance_and_reset_validator (snd p) s))) by (apply (tame_reset s (snd p) v Hv); cbn in Hp; congruence).
  unfold sbind. destruct (queue_entire_balance_and_reset_validator (snd p) s) as [r s1]. cbn [snd] in Hk.
  destruct r; try exact Hk. eapply tame_trans; [exact Hk|]. apply IH. intros q Hq. specialize (Hl q (or_intror Hq)). rewrite nthN_map in *.
  destruct (nthN (validators s) (snd q)) as [w|] eqn:Hw; [|discriminate]. destruct (proj1 Hk _ _ Hw) as (w' & Hw' & X & _). rewrite Hw'. cbn in *. congruence.
Qed.
Lemma tame_finish : pres tame (electra_finish E).
Proof.
  unfold electra_finish. pose proof (@pres_bind _ tame tame_trans) as PB.
  apply PB; [apply tame_rd|]. intros a. apply PB; [apply tame_md; reflexivity|]. intros _. apply PB; [apply tame_rd|]. intros c. apply PB; [apply tame_md; reflexivity|]. intros _.
  apply pres_rd_bind; [apply tame_refl|]. intros s pre Hpre. apply Ok_inj in Hpre. subst pre. set (l := key_sort (pre_activation_from (validators s) 0)).
  assert (Hk : tame s (snd (sfor l (fun p : N * N => queue_entire_balance_and_reset_validator (snd p)) s))).
  { apply tame_resets. intros p Hp. subst l. eapply Permutation.Permutation_in in Hp; [|symmetry; apply key_sort_perm]. apply pre_activation_far in Hp as [_ Hp]. rewrite N.sub_0_r in Hp. exact Hp. }
  unfold sbind at 1. destruct (sfor l _ s) as [r s1]. cbn [snd] in Hk. destruct r; try exact Hk.
  eapply tame_trans; [exact Hk|]. revert s1 Hk. intros s1 _. revert s1.
  change (pres tame (let* comp := rd (fun s => Ok (compounding_from (validators s) 0)) in sfor comp (queue_excess_active_balance E))).
  apply PB; [apply tame_rd|]. intros comp. apply (pres_for tame tame_refl tame_trans). intros i. unfold queue_excess_active_balance.
  repeat first [apply tame_rd | apply tame_lift | apply tame_md; reflexivity | apply PB; [|intros ?] | apply (pres_when tame tame_refl) | match goal with |- pres _ (match ?c with _ => _ end) => destruct c end | intros ?; apply tame_refl].
Qed.
Lemma electra_tame s t : upgrade_to_electra E s = Ok t -> tame s t.
Proof.
  intros Hu. unfold upgrade_to_electra in Hu. apply rbind_ok_inv in Hu as (e & _ & Hu). apply rbind_ok_inv in Hu as (ee & _ & Hu). apply rbind_ok_inv in Hu as (ec & _ & Hu).
  set (s0 := electra_base E e ee ec s) in *. destruct (electra_finish E s0) as [r post] eqn:Hp. apply rbind_ok_inv in Hu as (u & _ & Hu). apply Ok_inj in Hu. subst post.
  pose proof (tame_finish s0) as K. rewrite Hp in K. exact K.
Qed.
Lemma tame_sum s t e : e < FAR_FUTURE_EPOCH -> tame s t -> effective_sum t (active_set t e) = effective_sum s (active_set s e).
Proof.
  intros He [A B].
  assert (X : active_set t e = active_set s e).
  { unfold active_set, indices_where. rewrite B. apply filter_ext_in. intros i Hi. apply In_rangeN in Hi. destruct (nthN_lt _ _ Hi) as (v & Hv). destruct (A i v Hv) as (v' & Hv' & P1 & P2 & _).
    rewrite Hv, Hv'. unfold active_at. rewrite P1, P2. reflexivity. }
  rewrite X. unfold effective_sum. f_equal. apply map_ext_in. intros i Hi. apply In_active_set in Hi as (v & Hv & Ha). destruct (A i v Hv) as (v' & Hv' & _ & _ & [P|P]); unfold effective_balance_of; rewrite Hv, Hv'; [exact P|].
  unfold active_at in Ha. rewrite P in Ha. apply andb_true_iff in Ha as [Ha _]. apply N.leb_le in Ha. exfalso. apply (N.lt_irrefl e). eapply N.lt_le_trans; eauto.
Qed.
End Tame.
