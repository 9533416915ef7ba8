(** * What lowers a balance at the end of an epoch (proof file; no model definitions) *)
From Coq Require Import Permutation.
From Verif Require Import Base BaseLemmas Types Ctx Env Helpers HelpersAltair HelpersElectra Block Epoch Transition Upgrade StLemmas
  SpecCommon SpecHelpers SpecElectra SpecOps SpecBlock SpecEpoch SpecFlow SpecAtt SpecQueues SpecFinality SpecSafety SpecEvidence SpecAuthority SpecDebit
  Frame HelperProofs HelperProofs2 OpsProofs AttProofs FinalityProofs EpochProofs RewardProofs SlashProofs BlockProofs FlowProofs PropsEvidence AuthorityProofs.

(** what the steps before the rewards keep *)
Record before (s t : BeaconState) : Prop := mkBefore {
  be_v : validators t = validators s; be_b : balances t = balances s; be_s : slot t = slot s; be_p : previous_epoch_participation t = previous_epoch_participation s;
  be_c : pending_consolidations t = pending_consolidations s; be_g : genesis_validators_root t = genesis_validators_root s;
  be_f : fork t = fork s }.
Lemma before_refl s : before s s. Proof. constructor; reflexivity. Qed.
Lemma before_trans a b c : before a b -> before b c -> before a c.
Proof. intros [A1 A2 A3 A4 A5 A6 A7] [B1 B2 B3 B4 B5 B6 B7]. constructor; congruence. Qed.
Ltac be1 :=
  match goal with
  | |- forall _, _ => intro
  | |- pres before (sbind _ _) => apply pres_bind; [exact before_trans| |]
  | |- pres before (rd _) => apply pres_rd; exact before_refl
  | |- pres before (lift _) => apply pres_lift; exact before_refl
  | |- pres before (sret _) => apply pres_ret; exact before_refl
  | |- pres before (swhen _ _) => apply pres_when; [exact before_refl|]
  | |- pres before (sfor _ _) => apply pres_for; [exact before_refl|exact before_trans|]
  | |- pres before (match ?x with _ => _ end) => destruct x
  | |- pres before (let _ := _ in _) => cbv zeta
  | |- pres before (md _) => apply pres_md; intro; constructor; gs; reflexivity
  end.

Section Gen.
Variables (E : Env) (s0 : BeaconState) (due : N -> Validator -> Prop).
Hypothesis Hk : chk E = true.

Definition gbal (u : BeaconState) : Prop :=
  forall i v x, nthN (validators s0) i = Some v -> nthN (balances s0) i = Some x -> exists y, nthN (balances u) i = Some y /\ (x <= y \/ due i v).
Definition gb {A} (m : St BeaconState A) : Prop := forall u, gbal u -> gbal (snd (m u)).
Lemma eb_bind {A B} (m : St BeaconState A) (k : A -> St BeaconState B) : gb m -> (forall a, gb (k a)) -> gb (sbind m k).
Proof. intros H1 H2 u Hu. specialize (H1 u Hu). unfold sbind. destruct (m u) as [[a| | |] t]; cbn [snd] in *; auto. apply H2. exact H1. Qed.
Lemma eb_rd {A} (g : BeaconState -> res A) : gb (rd g). Proof. intros u Hu. exact Hu. Qed.
Lemma eb_lift {A} (r : res A) : gb (lift r). Proof. intros u Hu. exact Hu. Qed.
Lemma eb_ret {A} (a : A) : gb (sret a). Proof. intros u Hu. exact Hu. Qed.
Lemma eb_when c m : (c = true -> gb m) -> gb (swhen c m).
Proof. intros H. destruct c; [apply H; reflexivity|]. intros u Hu. exact Hu. Qed.
Lemma eb_for {A} (l : list A) (k : A -> St BeaconState unit) : (forall x, In x l -> gb (k x)) -> gb (sfor l k).
Proof. induction l as [|x l IH]; intros H; cbn [sfor]; [apply eb_ret|]. apply eb_bind; [apply H; left; reflexivity|]. intros _. apply IH. intros y Hy. apply H. right. exact Hy. Qed.
Lemma eb_md g : (forall u, balances (g u) = balances u) -> gb (md g).
Proof. intros H u Hu. cbn [md snd]. intros i v x. rewrite H. apply Hu. Qed.
Lemma eb_mod i g : gb (mod_validator i g).
Proof. unfold mod_validator. apply eb_bind; [apply eb_rd|]. intros v. apply eb_md. intros u. gs. reflexivity. Qed.
Lemma eb_upd (i y : N) u : gbal u -> i < lenN (balances u) -> ((forall x, nthN (balances u) i = Some x -> x <= y) \/ forall v, nthN (validators s0) i = Some v -> due i v) ->
  gbal (set_balances (updN (balances u) i y) u).
Proof.
  intros H1 Hi Hy j v x Hv Hx. gs. destruct (H1 j v x Hv Hx) as (z & A1 & A2). destruct (N.eq_dec j i) as [->|Hn].
  - exists y. rewrite nthN_updN_eq by exact Hi. split; [reflexivity|]. destruct Hy as [Hy|Hy]; [|right; apply Hy; exact Hv]. destruct A2 as [A2|A2]; [left|right; exact A2]. specialize (Hy z A1). lia.
  - exists z. rewrite nthN_updN_ne by congruence. auto.
Qed.
Lemma eb_inc i d : gb (increase_balance E i d).
Proof.
  intros u Hu. unfold increase_balance, sbind, rd, md. destruct (idx (balances u) i) as [x| | |] eqn:Hx; cbn [rbind snd]; try exact Hu. apply idx_ok in Hx.
  destruct (add E x d) as [y| | |] eqn:Hy; cbn [snd]; try exact Hu. apply eb_upd; [exact Hu|eapply nthN_some; eauto|]. left. intros x' Hx'. rewrite Hx in Hx'. injection Hx' as <-.
  apply (add_exact E x d y Hk) in Hy. lia.
Qed.
Lemma eb_dec i d : (d = 0 \/ forall v, nthN (validators s0) i = Some v -> due i v) -> gb (decrease_balance E i d).
Proof.
  intros H u Hu. unfold decrease_balance, sbind, rd, md. destruct (idx (balances u) i) as [x| | |] eqn:Hx; cbn [rbind snd]; try exact Hu. apply idx_ok in Hx.
  destruct (if x <? d then Ok 0 else sub E x d) as [y| | |] eqn:Hy; cbn [snd]; try exact Hu. apply eb_upd; [exact Hu|eapply nthN_some; eauto|]. destruct H as [->|H]; [left|right; exact H].
  intros x' Hx'. rewrite Hx in Hx'. injection Hx' as <-. destruct (N.ltb_spec x 0); [lia|]. unfold sub in Hy. rewrite usub_ok in Hy by lia. apply Ok_inj in Hy. lia.
Qed.
End Gen.
Ltac et1 :=
  match goal with
  | |- forall _, _ => intro
  | |- gb _ _ (sbind _ _) => apply eb_bind
  | |- gb _ _ (rd _) => apply eb_rd
  | |- gb _ _ (lift _) => apply eb_lift
  | |- gb _ _ (sret _) => apply eb_ret
  | |- gb _ _ (swhen _ _) => apply eb_when
  | |- gb _ _ (sfor _ _) => apply eb_for
  | |- gb _ _ (increase_balance _ _ _) => apply eb_inc; assumption
  | |- gb _ _ (mod_validator _ _) => apply eb_mod
  | |- gb _ _ (let _ := _ in _) => cbv zeta
  | |- gb _ _ (match ?x with _ => _ end) => destruct x
  | |- gb _ _ (md _) => apply eb_md; intro; gs; reflexivity
  end.
Ltac et := repeat et1.
Lemma eb_excess (E : Env) s0 (due : N -> Validator -> Prop) i : chk E = true -> (forall v, nthN (validators s0) i = Some v -> due i v) -> gb s0 due (queue_excess_active_balance E i).
Proof.
  intros Hk H u Hu. unfold queue_excess_active_balance, sbind at 1, rd at 1. destruct (idx (balances u) i) as [x| | |] eqn:Hx; cbn [snd]; try exact Hu. apply idx_ok in Hx. destruct (_ <? x); [|exact Hu].
  unfold sbind at 1, lift at 1. destruct (ok_or _ _) as [e| | |]; cbn [snd]; try exact Hu. unfold sbind at 1, md at 1. cbn beta iota.
  assert (B : gbal s0 due (set_balances (updN (balances u) i (MIN_ACTIVATION_BALANCE E)) u)).
  { apply (eb_upd E); try assumption; [eapply nthN_some; eauto|]. right. exact H. }
  revert B. generalize (set_balances (updN (balances u) i (MIN_ACTIVATION_BALANCE E)) u). intros t Ht. revert t Ht.
  match goal with |- forall t, _ -> gbal s0 due (snd (?m t)) => change (gb s0 due m) end. et.
Qed.

Section Ep.
Variables (E : Env) (f : Fork) (s0 : BeaconState).
Hypothesis Hc : ctx_sane E.
Hypothesis Hk : chk E = true.
Hypothesis Hf : fork_le Altair f = true.
Notation due := (epoch_debit_due E f s0).
Notation ebal := (gbal s0 due).
Notation eb := (gb s0 due).

Lemma voted_member s k l i : get_unslashed_participating_indices E s k (prev_epoch_of E s) = Ok l -> epoch_of E s <> 0 -> voted_flag E s k i = true -> memN i l = true.
Proof.
  intros H He Hv. unfold get_unslashed_participating_indices in H. rewrite (previous_epoch_ok E Hc), (current_epoch_ok E Hc) in H. cbn [rbind] in H. rewrite N.eqb_refl in H. cbn [negb andb] in H.
  destruct (N.eqb_spec (prev_epoch_of E s) (epoch_of E s)) as [Heq|_]; [unfold prev_epoch_of in Heq; lia|]. rewrite get_active_ok in H. apply memN_true. apply (In_rfilter _ _ _ H). unfold voted_flag in Hv.
  destruct (nthN (validators s) i) as [v|] eqn:A; [|discriminate Hv]. destruct (nthN (previous_epoch_participation s) i) as [p|] eqn:B; [|discriminate Hv].
  apply andb_true_iff in Hv as [Hv Hv3]. apply andb_true_iff in Hv as [Hv1 Hv2]. split; [apply In_active_set; eauto|]. apply idx_ok in A, B. rewrite B. cbn [rbind]. rewrite A. cbn [rbind].
  rewrite has_flag_bit, Hv2, Hv3. reflexivity.
Qed.
Definition spared (s : BeaconState) (k i : N) : Prop := eligible_at E s i = false \/ voted_flag E s k i = true.
Lemma flag_spared s k w i d : k = 2 \/ spared s k i -> epoch_of E s <> 0 -> get_flag_index_deltas E s k w = Ok d -> zero_at i (snd d).
Proof.
  intros Hs He H. unfold get_flag_index_deltas in H. rewrite (previous_epoch_ok E Hc) in H. cbn [rbind] in H. apply rbind_ok_inv in H as (pp & Hpp & H).
  apply rbind_ok_inv in H as (pb & _ & H). apply rbind_ok_inv in H as (pi & _ & H). apply rbind_ok_inv in H as (ab & _ & H). apply rbind_ok_inv in H as (ai & _ & H).
  apply rbind_ok_inv in H as (lk & _ & H). rewrite eligible_ok in H by exact Hc. cbn [rbind] in H.
  apply (rfold_keep (fun d => zero_at i (snd d)) _ _ _ _ H); [apply zero_repeat|]. intros x j y Hj Hx Hy.
  unfold flag_delta_step in Hy. apply rbind_ok_inv in Hy as (base & _ & Hy). destruct (memN j pp) eqn:Hm.
  - destruct (negb lk); [|apply Ok_inj in Hy; subst; assumption]. apply rbind_ok_inv in Hy as (a & _ & Hy). apply rbind_ok_inv in Hy as (nm & _ & Hy).
    apply rbind_ok_inv in Hy as (dn & _ & Hy). apply rbind_ok_inv in Hy as (q & _ & Hy). apply rbind_ok_inv in Hy as (r & Hr & Hy). apply Ok_inj in Hy. subst y. exact Hx.
  - destruct (N.eqb_spec k TIMELY_HEAD_FLAG_INDEX) as [Hk2|Hk2]; cbn [negb] in Hy; [apply Ok_inj in Hy; subst; assumption|]. apply rbind_ok_inv in Hy as (a & _ & Hy).
    apply rbind_ok_inv in Hy as (q & _ & Hy). apply rbind_ok_inv in Hy as (r & Hr & Hy). apply Ok_inj in Hy. subst y. cbn [snd]. apply (zero_bump E i j (snd x) q r); [|exact Hx|exact Hr].
    intros <-. destruct Hs as [Hs|[Hs|Hs]]; [exact (Hk2 Hs)|apply In_eligible in Hj; congruence|]. rewrite (voted_member s k pp i Hpp He Hs) in Hm. discriminate Hm.
Qed.
Lemma inactivity_spared s i d : spared s 1 i -> epoch_of E s <> 0 -> get_inactivity_penalty_deltas_altair E f s = Ok d -> zero_at i (snd d).
Proof.
  intros Hs He H. unfold get_inactivity_penalty_deltas_altair in H. rewrite (previous_epoch_ok E Hc) in H. cbn [rbind] in H. apply rbind_ok_inv in H as (tg & Htg & H).
  rewrite eligible_ok in H by exact Hc. cbn [rbind] in H. apply rbind_ok_inv in H as (p & Hp & H). apply Ok_inj in H. subst d.
  cbn [snd]. apply (rfold_keep (zero_at i) _ _ _ _ Hp); [apply zero_repeat|]. intros x j y Hj Hx Hy.
  destruct (memN j tg) eqn:Hm; [apply Ok_inj in Hy; subst; exact Hx|]. apply rbind_ok_inv in Hy as (v & _ & Hy). apply rbind_ok_inv in Hy as (sc & _ & Hy).
  apply rbind_ok_inv in Hy as (nm & _ & Hy). apply rbind_ok_inv in Hy as (dn & _ & Hy). apply rbind_ok_inv in Hy as (q & _ & Hy). apply (zero_bump E i j x q y); [|exact Hx|exact Hy].
  intros <-. destruct Hs as [Hs|Hs]; [apply In_eligible in Hj; congruence|]. rewrite (voted_member s 1 tg i Htg He Hs) in Hm. discriminate Hm.
Qed.
Lemma deltas_spared s ds : epoch_of E s <> 0 -> reward_deltas E f s = Ok ds -> forall d i, In d ds -> zero_at i (snd d) \/ missed_votes E s i.
Proof.
  intros He H d i Hin.
  assert (H' : (let! ds := rmap (fun fw => get_flag_index_deltas E s (fst fw) (snd fw)) FLAG_WEIGHTS in let! i := get_inactivity_penalty_deltas_altair E f s in Ok (ds ++ [i])) = Ok ds)
    by (revert H; clear - Hf; unfold reward_deltas; destruct f; first [discriminate Hf|auto]).
  destruct (eligible_at E s i) eqn:Hel; [destruct (voted_flag E s 0 i) eqn:V0; [destruct (voted_flag E s 1 i) eqn:V1|]|].
  2,3: right; split; auto.
  all: left; apply rbind_ok_inv in H' as (l & Hl & H'); apply rbind_ok_inv in H' as (q & Hq & H'); apply Ok_inj in H'; subst ds.
  all: apply in_app_or in Hin as [Hin|[<-|[]]]; [|apply (inactivity_spared s i q); unfold spared; auto].
  all: apply rmap_ok in Hl; unfold FLAG_WEIGHTS in Hl.
  all: inversion Hl as [|? d0 ? l0 D0 Hl0]; subst; inversion Hl0 as [|? d1 ? l1 D1 Hl1]; subst; inversion Hl1 as [|? d2 ? l2 D2 Hl2]; subst; inversion Hl2; subst; clear Hl Hl0 Hl1 Hl2; cbn [fst snd] in *.
  all: destruct Hin as [<-|[<-|[<-|[]]]]; eapply flag_spared; try eassumption; unfold spared; auto.
Qed.
Lemma missed_same u i : before s0 u -> missed_votes E u i -> missed_votes E s0 i.
Proof.
  intros [B1 B2 B3 B4 B5 B6 B7] [M1 M2]. unfold missed_votes, eligible_at, eligible_v, voted_flag, prev_epoch_of, epoch_of in *. rewrite B1, B3 in M1. rewrite !B1, B3, B4 in M2. auto.
Qed.
Lemma eb_rewards u : before s0 u -> ebal u -> ebal (snd (process_rewards_and_penalties E f u)).
Proof.
  intros Hb B. unfold process_rewards_and_penalties, sbind at 1, rd at 1. rewrite (current_epoch_ok E Hc). destruct (N.eqb_spec (epoch_of E u) GENESIS_EPOCH) as [|Hne]; [exact B|].
  unfold sbind at 1, rd at 1. destruct (reward_deltas E f u) as [ds| | |] eqn:Hds; cbn [snd]; try exact B. unfold sbind at 1, rd at 1.
  pose proof (deltas_spared u ds Hne Hds) as D.
  assert (D' : forall d i, In d ds -> zero_at i (snd d) \/ missed_votes E s0 i) by (intros d i Hin; destruct (D d i Hin) as [Z|Z]; [left; exact Z|right; apply (missed_same u); assumption]).
  clear D Hds Hne. enough (G : eb (sfor ds (apply_deltas E (lenN (validators u))))) by (apply G; exact B). apply eb_for. intros d Hd. unfold apply_deltas. apply eb_for. intros i _.
  apply eb_bind; [et|]. intros r. apply eb_bind; [et|]. intros _. intros t Ht. unfold sbind, lift. destruct (idx (snd d) i) as [p| | |] eqn:Hp; cbn [snd]; try exact Ht. apply idx_ok in Hp.
  apply eb_dec; [|exact Ht]. destruct (D' d i Hd) as [Z|Z]; [left; apply Z; exact Hp|right; intros v _; left; exact Z].
Qed.

Lemma e_exit g i : eb (initiate_exit E g i).
Proof. destruct g; unfold initiate_exit, initiate_validator_exit, initiate_validator_exit_electra, compute_exit_epoch_and_update_churn; et. Qed.
Lemma eb_registry : eb (process_registry_updates E f).
Proof. unfold process_registry_updates, registry_step. et; apply e_exit. Qed.
Definition PE (u : BeaconState) : Prop := PB E f s0 u /\ ebal u.
Lemma eb_slashings u : PE u -> ebal (snd (process_slashings E f u)).
Proof.
  intros [[I _] B]. unfold process_slashings.
  assert (Q : pres quiet (process_slashings E f)) by (unfold process_slashings, slashings_step; qt).
  assert (G : forall n e t a w, inv s0 (elink E f s0) nobody w /\ ebal w -> inv s0 (elink E f s0) nobody (snd (sfor n (slashings_step E e t a) w)) /\ ebal (snd (sfor n (slashings_step E e t a) w))).
  { intros n e t a. apply (hp_for (fun w => inv s0 (elink E f s0) nobody w /\ ebal w)). intros i _ w [J C]. split; [revert w J C; intros w J _; revert w J; apply hi_quiet; unfold slashings_step; qt|].
    unfold slashings_step, sbind at 1, rd at 1. destruct (idx (validators w) i) as [v| | |] eqn:Hv; cbn [snd]; try exact C. apply idx_ok in Hv. destruct (v_slashed v) eqn:Hs; [|exact C].
    enough (G : eb (let* e := lift (add E e (EPOCHS_PER_SLASHINGS_VECTOR E / 2)) in
      swhen (e =? v_withdrawable_epoch v)
        (let* p := lift (let! q := udiv (v_effective_balance v) (EFFECTIVE_BALANCE_INCREMENT E) in let! num := mul E q a in let! r := udiv num t in mul E r (EFFECTIVE_BALANCE_INCREMENT E)) in
         decrease_balance E i p))) by (apply G; exact C).
    et. apply eb_dec. right. intros v0 Hv0. right. left. destruct (iv_old _ _ _ _ J i v0 Hv0) as (w' & W1 & W2). rewrite Hv in W1. injection W1 as <-. rewrite <- (el_slashed _ _ _ _ _ _ W2). exact Hs. }
  unfold sbind at 1, rd at 1. destruct (get_current_epoch E u) as [e| | |]; cbn [snd]; try exact B. unfold sbind at 1, rd at 1. destruct (get_total_active_balance E u) as [t| | |]; cbn [snd]; try exact B.
  unfold sbind at 1, rd at 1. match goal with |- ebal (snd (match ?r with _ => _ end)) => destruct r as [a| | |] end; cbn [snd]; try exact B. unfold sbind at 1, rd at 1. apply G. split; assumption.
Qed.
Lemma eb_deposits l : forall a p c, eb (pending_deposits_loop E l a p c).
Proof. induction l as [|d l IH]; intros a p c; cbn [pending_deposits_loop]; et. apply IH. Qed.
Definition PI (u : BeaconState) : Prop := inv s0 (elink E f s0) nobody u /\ ebal u.
Lemma pi {A} (m : St BeaconState A) : holdI s0 (elink E f s0) nobody m -> eb m -> hp PI m.
Proof. intros H1 H2 u [U1 U2]. split; auto. Qed.
Lemma pix {A B} (m : St BeaconState A) (k : A -> St BeaconState B) : hp PI m -> (forall a, hp PI (k a)) -> hp PI (sbind m k).
Proof. intros H1 H2 u Hu. specialize (H1 u Hu). unfold sbind. destruct (m u) as [[a| | |] t]; cbn [snd] in *; auto. apply H2. exact H1. Qed.
Lemma p_switch c : f = Electra -> In c (pending_consolidations s0) -> hp PI (switch_to_compounding_validator E (pc_target_index c)).
Proof.
  intros He Hin u [I B]. split; [apply epoch_switch; [split; [exact He|exists c; auto]|exact I]|].
  unfold switch_to_compounding_validator, sbind at 1, rd at 1. destruct (idx (validators u) (pc_target_index c)) as [v1| | |] eqn:Hv; cbn [snd]; try exact B.
  destruct (has_eth1_withdrawal_credential v1) eqn:H1; [|exact B]. apply idx_ok in Hv. apply eth1_first in H1.
  assert (D : forall v, nthN (validators s0) (pc_target_index c) = Some v -> due (pc_target_index c) v).
  { intros v Hv0. right. right. split; [exact He|]. exists c. split; [exact Hin|]. right. split; [reflexivity|]. destruct (iv_old _ _ _ _ I _ v Hv0) as (w' & W1 & [L1 L2 L3 L4]). rewrite Hv in W1. injection W1 as <-.
    destruct L4 as [L4|(_ & L4 & _)]; [rewrite <- L4; exact H1|exact L4]. }
  clear Hv I. revert u B. match goal with |- forall t, _ -> ebal (snd (?m t)) => change (eb m) end. apply eb_bind; [apply eb_mod|]. intros _. apply eb_excess; assumption.
Qed.
Lemma p_loop l : f = Electra -> (forall c, In c l -> In c (pending_consolidations s0)) -> forall n, hp PI (pending_consolidations_loop E l n).
Proof.
  intros He. induction l as [|c l IH]; intros Hl n; cbn [pending_consolidations_loop]; [apply pi; [apply hi_quiet; qt|et]|]. assert (IH' := IH (fun c' H' => Hl c' (or_intror H'))).
  apply pix; [apply pi; [apply hi_quiet; qt|et]|]. intros src. destruct (v_slashed src); [apply IH'|]. apply pix; [apply pi; [apply hi_quiet; qt|et]|]. intros cur.
  destruct (_ <? _); [apply pi; [apply hi_quiet; qt|et]|].
  apply pix; [apply p_switch; [exact He|apply Hl; left; reflexivity]|]. intros _. apply pix; [apply pi; [apply hi_quiet; qt|et]|]. intros ab.
  apply pix. { apply pi; [apply hi_quiet; qt|]. apply eb_dec. right. intros v _. right. right. split; [exact He|]. exists c. split; [apply Hl; left; reflexivity|auto]. }
  intros _. apply pix; [apply pi; [apply hi_quiet; qt|et]|]. intros _. apply IH'.
Qed.
Lemma e_epoch : ebal (snd (process_epoch E f s0)).
Proof.
  assert (B0 : ebal s0) by (intros i v x _ Hx; exists x; split; [exact Hx|left; lia]).
  assert (Same : forall u, before s0 u -> ebal u) by (intros u [H1 H2 _ _ _ _ _] i v x _ Hx; exists x; rewrite H2; split; [exact Hx|left; lia]).
  unfold process_epoch. unfold sbind at 1.
  assert (S1 : before s0 (snd (process_justification_and_finalization E f s0))).
  { enough (Q : pres before (process_justification_and_finalization E f)) by apply Q.
    unfold process_justification_and_finalization, weigh_justification_and_finalization, justify, finalize_if. repeat be1. }
  destruct (process_justification_and_finalization E f s0) as [[a1| | |] u1]; cbn [snd] in *; try (apply Same; exact S1).
  unfold sbind at 1. assert (S2 : before s0 (snd (swhen (fork_le Altair f) (process_inactivity_updates E) u1))).
  { eapply before_trans; [exact S1|]. enough (Q : pres before (swhen (fork_le Altair f) (process_inactivity_updates E))) by apply Q. unfold process_inactivity_updates, inactivity_update_step. repeat be1. }
  destruct (swhen (fork_le Altair f) (process_inactivity_updates E) u1) as [[a2| | |] u2]; cbn [snd] in *; try (apply Same; exact S2).
  assert (A2 : PA E s0 u2).
  { destruct S2 as [T1 T2 T3 T4 T5 T6 T7]. split; [|exact T5]. constructor; auto.
    - rewrite T1. intros i v Hv. exists v. split; [exact Hv|]. constructor; auto.
    - rewrite T1. intros i v' Hv Hi. exfalso. apply nthN_some in Hv. lia. }
  unfold sbind at 1. pose proof (eb_rewards u2 S2 (Same u2 S2)) as B3.
  assert (A3 : PA E s0 (snd (process_rewards_and_penalties E f u2))).
  { enough (Q : hp (PA E s0) (process_rewards_and_penalties E f)) by (apply Q; exact A2). apply hpa; unfold process_rewards_and_penalties, apply_deltas; [apply hi_quiet; qt|unfold increase_balance, decrease_balance; kcs]. }
  destruct (process_rewards_and_penalties E f u2) as [[a3| | |] u3]; cbn [snd] in *; try exact B3.
  unfold sbind at 1. pose proof (eb_registry u3 B3) as B4. pose proof (registry_b E f s0 Hc u3 A3) as A4.
  destruct (process_registry_updates E f u3) as [[a4| | |] u4]; cbn [snd] in *; try exact B4.
  unfold sbind at 1. pose proof (eb_slashings u4 (conj A4 B4)) as B5.
  assert (A5 : PB E f s0 (snd (process_slashings E f u4))).
  { enough (Q : hp (PB E f s0) (process_slashings E f)) by (apply Q; exact A4). apply hpb; [apply hi_quiet; unfold process_slashings, slashings_step; qt|unfold process_slashings, slashings_step, decrease_balance; kcs]. }
  destruct (process_slashings E f u4) as [[a5| | |] u5]; cbn [snd] in *; try exact B5.
  unfold sbind at 1.
  assert (A6 : PB E f s0 (snd (process_eth1_data_reset E u5))).
  { enough (Q : hp (PB E f s0) (process_eth1_data_reset E)) by (apply Q; exact A5). apply hpb; [apply hi_quiet; unfold process_eth1_data_reset; qt|unfold process_eth1_data_reset; kcs]. }
  assert (B6 : ebal (snd (process_eth1_data_reset E u5))).
  { enough (Q : eb (process_eth1_data_reset E)) by (apply Q; exact B5). unfold process_eth1_data_reset. et. }
  destruct (process_eth1_data_reset E u5) as [[a6| | |] u6]; cbn [snd] in *; try exact B6.
  unfold sbind at 1.
  assert (B7 : ebal (snd (swhen (fork_le Electra f) (process_pending_balance_deposits E ;; process_pending_consolidations E) u6))).
  { destruct (fork_le Electra f) eqn:He; cbn [swhen]; [|exact B6]. assert (He' : f = Electra) by (clear - He; destruct f; first [reflexivity|discriminate He]).
    unfold sbind at 1.
    assert (A7 : PB E f s0 (snd (process_pending_balance_deposits E u6))).
    { enough (Q : hp (PB E f s0) (process_pending_balance_deposits E)) by (apply Q; exact A6). apply hpb; unfold process_pending_balance_deposits; [apply hi_quiet; qt; apply quiet_deposits|kcs; apply kc_deposits]. }
    assert (B7 : ebal (snd (process_pending_balance_deposits E u6))).
    { enough (Q : eb (process_pending_balance_deposits E)) by (apply Q; exact B6). unfold process_pending_balance_deposits. et. apply eb_deposits. }
    destruct (process_pending_balance_deposits E u6) as [[a7| | |] u7]; cbn [snd] in *; try exact B7. destruct A7 as [I7 K7].
    unfold process_pending_consolidations, sbind at 1, rd at 1. rewrite K7.
    enough (Q : hp PI (let* n := pending_consolidations_loop E (pending_consolidations s0) 0 in md (fun s => set_pending_consolidations (skipN n (pending_consolidations s)) s))) by (apply Q; split; assumption).
    apply pix; [apply p_loop; auto|]. intros n. apply pi; [apply hi_quiet; qt|et]. }
  destruct (swhen (fork_le Electra f) _ u6) as [[a7| | |] u7]; cbn [snd] in *; try exact B7.
  revert u7 B7. match goal with |- forall t, _ -> ebal (snd (?m t)) => change (eb m) end.
  unfold process_effective_balance_updates, effective_balance_step, process_slashings_reset, process_randao_mixes_reset, process_historical_update, process_participation_record_updates, process_participation_flag_updates, process_sync_committee_updates.
  et.
Qed.
End Ep.

(** ** The upgrade to electra *)
Lemma pre_far : forall vs k p, In p (pre_activation_from vs k) -> exists v, k <= snd p /\ nthN vs (snd p - k) = Some v /\ v_activation_epoch v = FAR_FUTURE_EPOCH.
Proof.
  induction vs as [|v vs IH]; intros k p Hp; cbn [pre_activation_from] in Hp; [destruct Hp|]. apply in_app_or in Hp as [Hp|Hp].
  - destruct (N.eqb_spec (v_activation_epoch v) FAR_FUTURE_EPOCH) as [He|]; [|destruct Hp]. destruct Hp as [<-|[]]. exists v. cbn [snd]. rewrite N.sub_diag. split; [lia|auto].
  - destruct (IH _ _ Hp) as (w & A1 & A2 & A3). exists w. split; [lia|]. split; [|exact A3]. replace (snd p - k) with (snd p - (k + 1) + 1) by lia. rewrite nthN_succ. exact A2.
Qed.
Lemma comp_two : forall vs k i, In i (compounding_from vs k) -> exists v, k <= i /\ nthN vs (i - k) = Some v /\ nthN (v_withdrawal_credentials v) 0 = Some 2.
Proof.
  induction vs as [|v vs IH]; intros k p Hp; cbn [compounding_from] in Hp; [destruct Hp|]. apply in_app_or in Hp as [Hp|Hp].
  - destruct (has_compounding_withdrawal_credential v) eqn:He; [|destruct Hp]. destruct Hp as [<-|[]]. exists v. rewrite N.sub_diag. split; [lia|]. split; [reflexivity|].
    unfold has_compounding_withdrawal_credential, is_compounding_withdrawal_credential in He. destruct (v_withdrawal_credentials v); [discriminate He|]. cbn in He. apply N.eqb_eq in He. rewrite He. reflexivity.
  - destruct (IH _ _ Hp) as (w & A1 & A2 & A3). exists w. split; [lia|]. split; [|exact A3]. replace (p - k) with (p - (k + 1) + 1) by lia. rewrite nthN_succ. exact A2.
Qed.
Record wlink (i : N) (v v' : Validator) : Prop := mkWlink { wl_act : v_activation_epoch v' = v_activation_epoch v; wl_cred : v_withdrawal_credentials v' = v_withdrawal_credentials v }.
Lemma g_electra (E : Env) s t : chk E = true -> upgrade_to_electra E s = Ok t ->
  (forall i v, nthN (validators s) i = Some v -> exists v', nthN (validators t) i = Some v') /\ gbal s (fun _ v => requeued Deneb Electra v) t.
Proof.
  intros Hk H. unfold upgrade_to_electra in H. apply rbind_ok_inv in H as (e & _ & H). apply rbind_ok_inv in H as (ee & _ & H). apply rbind_ok_inv in H as (ec & _ & H).
  set (s1 := electra_base E e ee ec s) in *. destruct (electra_finish E s1) as [r post] eqn:Hp. apply rbind_ok_inv in H as (u & _ & H). apply Ok_inj in H. subst post.
  assert (V : validators s1 = validators s) by reflexivity. assert (Bb : balances s1 = balances s) by reflexivity. clearbody s1.
  set (due := fun (_ : N) v => requeued Deneb Electra v).
  set (P := fun u => inv s1 wlink nobody u /\ gbal s1 due u).
  assert (P0 : P s1). { split; [apply inv_start; intros i v _; constructor; auto|]. intros i v x _ Hx. exists x. split; [exact Hx|left; lia]. }
  assert (X : forall A B (m : St BeaconState A) (k : A -> St BeaconState B), hp P m -> (forall a, hp P (k a)) -> hp P (sbind m k)).
  { intros A B m k H1 H2 w Hw. specialize (H1 w Hw). unfold sbind. destruct (m w) as [[a| | |] w']; cbn [snd] in *; auto. apply H2. exact H1. }
  assert (Xr : forall A B (g : BeaconState -> res A) (k : A -> St BeaconState B), (forall w a, P w -> g w = Ok a -> hp P (k a)) -> hp P (sbind (rd g) k)).
  { intros A B g k H1 w Hw. unfold sbind, rd. destruct (g w) as [a| | |] eqn:G; cbn [snd]; try exact Hw. apply (H1 w a Hw G). exact Hw. }
  assert (Y : forall A (m : St BeaconState A), holdI s1 wlink nobody m -> gb s1 due m -> hp P m) by (intros A m H1 H2 w [W1 W2]; split; auto).
  assert (K : hp P (electra_finish E)).
  { unfold electra_finish. apply X; [apply Y; [apply hi_quiet; qt|et]|]. intros a. apply X; [apply Y; [apply hi_quiet; qt|et]|]. intros _. apply X; [apply Y; [apply hi_quiet; qt|et]|]. intros c.
    apply X; [apply Y; [apply hi_quiet; qt|et]|]. intros _. apply Xr. intros w1 pre [Iw _] G. apply Ok_inj in G. subst pre.
    assert (Q : forall p, In p (key_sort (pre_activation_from (validators w1) 0)) -> forall v, nthN (validators s1) (snd p) = Some v -> due (snd p) v).
    { intros p Hin v Hv. eapply Permutation_in in Hin; [|symmetry; apply key_sort_perm]. apply pre_far in Hin as (v1 & _ & A2 & A3). rewrite N.sub_0_r in A2.
      destruct (iv_old _ _ _ _ Iw _ v Hv) as (v2 & B1 & [B2 B3]). rewrite A2 in B1. injection B1 as <-. split; [reflexivity|]. split; [reflexivity|]. left. congruence. }
    clear Iw. apply X.
    - apply hp_for. intros p Hin. specialize (Q p Hin). unfold queue_entire_balance_and_reset_validator. apply X; [apply Y; [apply hi_quiet; qt|et]|]. intros ba.
      apply X. { apply Y; [apply hi_quiet; qt|]. intros w Hw. cbn [md snd]. destruct (N.lt_ge_cases (snd p) (lenN (balances w))) as [Hl|Hl].
        - apply (eb_upd E); try assumption. right. exact Q.
        - intros i v x Hv Hx. gs. destruct (Hw i v x Hv Hx) as (y & C1 & C2). exists y. split; [|exact C2]. rewrite nthN_updN_ne; [exact C1|]. intros <-. apply nthN_some in C1. lia. }
      intros _. apply X; [apply Y; [|et]|intros _; apply Y; [apply hi_quiet; qt|et]]. apply hi_mod; [|intros _ v' []]. intros v v' _ [L1 L2]. constructor; gs; assumption.
    - intros _. apply Xr. intros w2 comp [Iw _] G. apply Ok_inj in G. subst comp. apply hp_for. intros i Hin. apply Y; [apply hi_quiet; unfold queue_excess_active_balance; qt|]. apply eb_excess; [exact Hk|].
      intros v Hv. apply comp_two in Hin as (v1 & _ & A2 & A3). rewrite N.sub_0_r in A2. destruct (iv_old _ _ _ _ Iw _ v Hv) as (v2 & B1 & [B2 B3]). rewrite A2 in B1. injection B1 as <-.
      split; [reflexivity|]. split; [reflexivity|]. right. congruence. }
  specialize (K s1 P0). rewrite Hp in K. cbn [snd] in K. destruct K as [K1 K2]. split.
  - intros i v Hv. rewrite <- V in Hv. destruct (iv_old _ _ _ _ K1 i v Hv) as (v' & A & _). eauto.
  - intros i v x Hv Hx. apply K2; congruence.
Qed.
Lemma g_call (E : Env) f g s t : chk E = true -> chain_call E (f, s) (g, t) -> f <> g ->
  (forall i v, nthN (validators s) i = Some v -> exists v', nthN (validators t) i = Some v') /\ gbal s (fun _ v => requeued f g v) t.
Proof.
  intros Hk H Hne.
  assert (G : validators t = validators s -> balances t = balances s -> (forall i v, nthN (validators s) i = Some v -> exists v', nthN (validators t) i = Some v') /\ gbal s (fun _ v => requeued f g v) t).
  { intros H1 H2. split; [rewrite H1; eauto|]. intros i v x _ Hx. exists x. rewrite H2. split; [exact Hx|left; lia]. }
  inversion H; subst; try congruence.
  - match goal with H : upgrade_to_altair E s = Ok t |- _ => rename H into Hu end. unfold upgrade_to_altair in Hu. rinv Hu. subst t. gs.
    match goal with H : translate_participation _ _ _ = Ok _ |- _ => unfold translate_participation in H; rinv H; subst end. apply G; unfold altair_base; gs; reflexivity.
  - match goal with H : upgrade_to_bellatrix E s = Ok t |- _ => unfold upgrade_to_bellatrix in H; rinv H; subst end. apply G; reflexivity.
  - match goal with H : upgrade_to_capella E s = Ok t |- _ => unfold upgrade_to_capella in H; rinv H; subst end. apply G; reflexivity.
  - match goal with H : upgrade_to_deneb E s = Ok t |- _ => unfold upgrade_to_deneb in H; rinv H; subst end. apply G; reflexivity.
  - apply (g_electra E); assumption.
Qed.
