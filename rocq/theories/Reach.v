(** * Invariants of reachable states (proof file; no model definitions) *)
From Verif Require Import Base BaseLemmas Types Ctx Env Helpers HelpersAltair HelpersElectra Block Epoch Transition Genesis StLemmas SpecCommon Frame FrameProofs SpecReach.
From Coq Require Import Relations Permutation.

Definition hold {A} (E : Env) (f : Fork) (m : St BeaconState A) : Prop := pres (fun s t => well_formed E f s -> well_formed E f t) m.

Section Calculus.
Variables (E : Env) (f : Fork).
Notation hold := (hold E f).
Notation well_formed := (well_formed E f).
Lemma hd_refl s : well_formed s -> well_formed s. Proof. auto. Qed.
Lemma hd_trans a b c : (well_formed a -> well_formed b) -> (well_formed b -> well_formed c) -> well_formed a -> well_formed c. Proof. auto. Qed.
Lemma hd_ret {A} (a : A) : hold (sret a). Proof. apply pres_ret. exact hd_refl. Qed.
Lemma hd_rd {A} (g : BeaconState -> res A) : hold (rd g). Proof. apply pres_rd. exact hd_refl. Qed.
Lemma hd_lift {A} (r : res A) : hold (lift r). Proof. apply pres_lift. exact hd_refl. Qed.
Lemma hd_md g : (forall s, well_formed s -> well_formed (g s)) -> hold (md g). Proof. intros H s. apply H. Qed.
Lemma hd_bind {A B} (m : St BeaconState A) (k : A -> St BeaconState B) : hold m -> (forall a, hold (k a)) -> hold (sbind m k).
Proof. apply pres_bind. exact hd_trans. Qed.
Lemma hd_when c m : hold m -> hold (swhen c m). Proof. apply pres_when. exact hd_refl. Qed.
Lemma hd_when_true c m : (c = true -> hold m) -> hold (swhen c m).
Proof. intros H. destruct c; [apply H; reflexivity|apply hd_ret]. Qed.
Lemma hd_for {A} (xs : list A) body : (forall x, hold (body x)) -> hold (sfor xs body).
Proof. apply pres_for; [exact hd_refl|exact hd_trans]. Qed.
Lemma hd_fold {A B} (xs : list A) (body : B -> A -> St BeaconState B) b : (forall b x, hold (body b x)) -> hold (sfold body xs b).
Proof. intros. apply pres_fold; auto. Qed.
Lemma hd_rd_bind {A B} (g : BeaconState -> res A) (k : A -> St BeaconState B) :
  (forall s a, well_formed s -> g s = Ok a -> well_formed (snd (k a s))) -> hold (sbind (rd g) k).
Proof. intros H. apply pres_rd_bind; [exact hd_refl|]. intros s a Ha Hs. eauto. Qed.
(** symbolic execution from a known state *)
Lemma at_bind {A B} (m : St BeaconState A) (k : A -> St BeaconState B) s : well_formed (snd (m s)) ->
  (forall a t, m s = (Ok a, t) -> well_formed t -> well_formed (snd (k a t))) -> well_formed (snd (sbind m k s)).
Proof. intros Hm Hk. unfold sbind. destruct (m s) as [[a| | |] t]; cbn [snd] in *; auto. Qed.
Lemma at_rd {A B} (g : BeaconState -> res A) (k : A -> St BeaconState B) s : well_formed s -> (forall a, g s = Ok a -> well_formed (snd (k a s))) -> well_formed (snd (sbind (rd g) k s)).
Proof. intros Hs Hk. unfold sbind, rd. destruct (g s); cbn [snd]; auto. Qed.
Lemma at_lift {A B} (r : res A) (k : A -> St BeaconState B) s : well_formed s -> (forall a, r = Ok a -> well_formed (snd (k a s))) -> well_formed (snd (sbind (lift r) k s)).
Proof. intros Hs Hk. unfold sbind, lift. destruct r; cbn [snd]; auto. Qed.
Lemma at_md {B} g (k : unit -> St BeaconState B) s : well_formed (snd (k tt (g s))) -> well_formed (snd (sbind (md g) k s)).
Proof. intros Hk. exact Hk. Qed.

(** ** What the invariant depends on *)
Lemma inv_frame s t : validators t = validators s -> lenN (balances t) = lenN (balances s) ->
  pending_balance_deposits t = pending_balance_deposits s -> pending_partial_withdrawals t = pending_partial_withdrawals s ->
  pending_consolidations t = pending_consolidations s -> next_withdrawal_validator_index t = next_withdrawal_validator_index s ->
  current_sync_committee t = current_sync_committee s -> next_sync_committee t = next_sync_committee s -> slot t = slot s ->
  previous_justified_checkpoint t = previous_justified_checkpoint s -> current_justified_checkpoint t = current_justified_checkpoint s ->
  finalized_checkpoint t = finalized_checkpoint s -> earliest_exit_epoch t = earliest_exit_epoch s ->
  earliest_consolidation_epoch t = earliest_consolidation_epoch s -> well_formed s -> well_formed t.
Proof.
  intros H1 H2 H3 H4 H5 H6 H7 H8 H9 Ha Hb Hc Hd He [L [R1 R2 R3 R4] Z S P Q V]. constructor.
  - rewrite H1, H2. exact L.
  - constructor; rewrite H1; [rewrite H3|rewrite H4|rewrite H5|rewrite H6]; assumption.
  - rewrite H1, H6. exact Z.
  - unfold committee_valid in *. rewrite H1, H7, H8. exact S.
  - unfold checkpoints_past, epoch_of in *. rewrite H9, Ha, Hb, Hc. exact P.
  - unfold queue_epochs in *. rewrite Hd, He. exact Q.
  - rewrite H1. exact V.
Qed.
Lemma In_updN_inv {A} (l : list A) i x y : In y (updN l i x) -> y = x \/ In y l.
Proof.
  intros H. apply In_nthN in H as [j Hj]. destruct (N.eq_dec j i) as [->|Hne].
  - left. destruct (N.lt_ge_cases i (lenN l)) as [Hl|Hl].
    + rewrite nthN_updN_eq in Hj by exact Hl. congruence.
    + apply nthN_some in Hj. rewrite lenN_updN in Hj. lia.
  - rewrite nthN_updN_ne in Hj by congruence. right. eapply nthN_In; eauto.
Qed.
Lemma keys_upd (l : list Validator) i v v' pk : nthN l i = Some v -> v_public_key v' = v_public_key v ->
  (exists w, In w l /\ v_public_key w = pk) -> exists w, In w (updN l i v') /\ v_public_key w = pk.
Proof.
  intros Hv Hk (w & Hw & Hp). apply In_nthN in Hw as [j Hj]. destruct (N.eq_dec j i) as [->|Hne].
  - exists v'. split; [|congruence]. eapply nthN_In. apply nthN_updN_eq. eapply nthN_some; eauto.
  - exists w. split; [|exact Hp]. eapply (nthN_In _ j). rewrite nthN_updN_ne by congruence. exact Hj.
Qed.
Lemma inv_upd s i v v' : nthN (validators s) i = Some v -> v_public_key v' = v_public_key v ->
  (chk E = true -> lifecycle v -> lifecycle v') -> well_formed s -> well_formed (set_validators (updN (validators s) i v') s).
Proof.
  intros Hv Hk Hl [L [R1 R2 R3 R4] Z S P Q V].
  assert (Hne : validators s <> []) by (intros Hn; rewrite Hn in Hv; destruct i; discriminate Hv).
  constructor; gs.
  - rewrite lenN_updN. exact L.
  - constructor; gs; rewrite ?lenN_updN; try assumption. intros _. apply R4. exact Hne.
  - intros H. exfalso. assert (Hz : lenN (updN (validators s) i v') = 0) by (rewrite H; reflexivity). rewrite lenN_updN in Hz.
    apply nthN_some in Hv. lia.
  - intros Hf. destruct (S Hf) as [[A1 A2] [B1 B2]]. unfold committee_valid. gs. split; (split; [assumption|]); intros pk Hpk; eapply keys_upd; eauto.
  - unfold checkpoints_past, epoch_of in *. gs. exact P.
  - unfold queue_epochs in *. gs. exact Q.
  - intros Hc w Hw. apply In_updN_inv in Hw as [->|Hw]; [|auto]. apply (Hl Hc). apply (V Hc). eapply nthN_In; eauto.
Qed.
Lemma inv_mod i g s : (forall v, nthN (validators s) i = Some v -> v_public_key (g v) = v_public_key v /\ (chk E = true -> lifecycle v -> lifecycle (g v))) ->
  well_formed s -> well_formed (snd (mod_validator i g s)).
Proof.
  intros H Hs. destruct (nthN (validators s) i) as [v|] eqn:Hv.
  - rewrite (mod_validator_run s i g v Hv). cbn [snd]. destruct (H v eq_refl). eapply inv_upd; eauto.
  - unfold mod_validator, sbind, rd, idx. rewrite Hv. exact Hs.
Qed.
Lemma hd_mod i g : (forall v, v_public_key (g v) = v_public_key v /\ (lifecycle v -> lifecycle (g v))) -> hold (mod_validator i g).
Proof. intros H s Hs. apply inv_mod; [|exact Hs]. intros v _. destruct (H v). auto. Qed.
Lemma inv_new s v b t : validators t = validators s ++ [v] -> balances t = balances s ++ [b] ->
  pending_balance_deposits t = pending_balance_deposits s -> pending_partial_withdrawals t = pending_partial_withdrawals s ->
  pending_consolidations t = pending_consolidations s -> next_withdrawal_validator_index t = next_withdrawal_validator_index s ->
  current_sync_committee t = current_sync_committee s -> next_sync_committee t = next_sync_committee s -> slot t = slot s ->
  previous_justified_checkpoint t = previous_justified_checkpoint s -> current_justified_checkpoint t = current_justified_checkpoint s ->
  finalized_checkpoint t = finalized_checkpoint s -> earliest_exit_epoch t = earliest_exit_epoch s ->
  earliest_consolidation_epoch t = earliest_consolidation_epoch s -> lifecycle v -> well_formed s -> well_formed t.
Proof.
  intros H1 H2 H3 H4 H5 H6 H7 H8 H9 Ha Hb Hc Hd He Hv [L [R1 R2 R3 R4] Z S P Q V].
  assert (Hlen : lenN (validators t) = lenN (validators s) + 1) by (rewrite H1, lenN_app; reflexivity).
  constructor.
  - rewrite H2, lenN_app, Hlen, L. reflexivity.
  - constructor; rewrite Hlen.
    + rewrite H3. intros d Hd'. specialize (R1 d Hd'). lia.
    + rewrite H4. intros d Hd'. specialize (R2 d Hd'). lia.
    + rewrite H5. intros d Hd'. specialize (R3 d Hd'). lia.
    + intros _. rewrite H6. destruct (validators s) as [|w l] eqn:Hs; [rewrite Z by reflexivity; lia|].
      specialize (R4 ltac:(discriminate)). lia.
  - rewrite H1. intros Hn. destruct (validators s); discriminate Hn.
  - intros Hf. destruct (S Hf) as [[A1 A2] [B1 B2]]. unfold committee_valid. rewrite H1, H7, H8.
    split; (split; [assumption|]); intros pk Hpk; [destruct (A2 pk Hpk) as (w & Hw & Hp)|destruct (B2 pk Hpk) as (w & Hw & Hp)];
      exists w; (split; [apply in_or_app; left|]); assumption.
  - unfold checkpoints_past, epoch_of in *. rewrite H9, Ha, Hb, Hc. exact P.
  - unfold queue_epochs in *. rewrite Hd, He. exact Q.
  - rewrite H1. intros Hchk w Hw. apply in_app_or in Hw as [Hw|[<-|[]]]; auto.
Qed.
End Calculus.

Ltac irr s H := apply (inv_frame _ _ s); [gs; try reflexivity; try apply lenN_updN..|exact H].
Create HintDb reach.
Ltac hh1 :=
  match goal with
  | |- forall _, _ => intro
  | |- hold _ _ (sbind _ _) => apply hd_bind
  | |- hold _ _ (rd _) => apply hd_rd
  | |- hold _ _ (lift _) => apply hd_lift
  | |- hold _ _ (sret _) => apply hd_ret
  | |- hold _ _ (swhen _ _) => apply hd_when
  | |- hold _ _ (sfor _ _) => apply hd_for
  | |- hold _ _ (sfold _ _ _) => apply hd_fold
  | |- hold _ _ (match ?x with _ => _ end) => destruct x
  | |- hold _ _ (md _) => apply hd_md; let s := fresh "s" in let H := fresh "Hs" in intros s H; try solve [irr s H]
  | |- hold _ _ _ => solve [eauto with reach]
  end.
Ltac hh := repeat hh1.

Section Leaves.
(** [f] selects the functions, [h] whether the state has sync committees *)
Variables (E : Env) (f h : Fork).
Hypothesis delay_pos : 1 <= MIN_VALIDATOR_WITHDRAWABILITY_DELAY E.
Notation hold := (hold E h).
Notation well_formed := (well_formed E h).

Lemma hd_increase i d : hold (increase_balance E i d).
Proof. unfold increase_balance. hh. Qed.
Lemma hd_decrease i d : hold (decrease_balance E i d).
Proof. unfold decrease_balance. hh. Qed.
Hint Resolve hd_increase hd_decrease : reach.

Lemma cur_epoch s e : get_current_epoch E s = Ok e -> e = epoch_of E s.
Proof. unfold get_current_epoch, compute_epoch_at_slot, udiv, epoch_of. destruct (_ =? 0); [discriminate|]. intros H. injection H as <-. reflexivity. Qed.
Lemma add_checked x y z : chk E = true -> add E x y = Ok z -> z = x + y /\ z < U64.
Proof. unfold add, uadd. intros ->. destruct (N.ltb_spec (x + y) U64); intros H'; [injection H' as <-; auto|discriminate]. Qed.
Lemma far_is : FAR_FUTURE_EPOCH = U64 - 1. Proof. reflexivity. Qed.
Lemma act_exit e ae : chk E = true -> compute_activation_exit_epoch E e = Ok ae -> e < ae /\ ae <= FAR_FUTURE_EPOCH.
Proof.
  intros Hc H. unfold compute_activation_exit_epoch in H. rinv H.
  apply (add_checked _ _ _ Hc) in H as [-> H]. match goal with H : add E e 1 = Ok _ |- _ => apply (add_checked _ _ _ Hc) in H as [-> _] end.
  rewrite far_is. lia.
Qed.
Lemma maxN_ge l : forall d, d <= maxN l d.
Proof. induction l as [|x l IH]; intros d; cbn; [lia|]. specialize (IH (N.max d x)). unfold maxN in *. lia. Qed.
Lemma maxN_le b l : forall d, (forall x, In x l -> x <= b) -> d <= b -> maxN l d <= b.
Proof.
  induction l as [|x l IH]; intros d H Hd; cbn; [exact Hd|]. apply IH; [intros; apply H; right; assumption|].
  specialize (H x (or_introl eq_refl)). lia.
Qed.
Lemma queue_after s q : chk E = true -> well_formed s -> exit_queue_epoch E s = Ok q -> epoch_of E s < q /\ q <= FAR_FUTURE_EPOCH.
Proof.
  intros Hc Hs H. unfold exit_queue_epoch in H. rinv H. apply cur_epoch in H0. subst.
  match goal with H : compute_activation_exit_epoch E _ = Ok _ |- _ => apply (act_exit _ _ Hc) in H as [Ha Hb] end.
  match type of H with context [maxN ?l ?d] => pose proof (maxN_ge l d) as Hge; assert (Hle : maxN l d <= FAR_FUTURE_EPOCH) end.
  { apply maxN_le; [|exact Hb]. intros x Hx. apply in_map_iff in Hx as (v & <- & Hv). apply filter_In in Hv as [Hv _].
    destruct (n_life _ _ _ Hs Hc v Hv). lia. }
  destruct (_ <=? _).
  - apply (add_checked _ _ _ Hc) in H as [-> H]. rewrite far_is in *. lia.
  - injection H as <-. lia.
Qed.
Lemma churn_after p se sb ae b r : chk E = true -> churn_step E p se sb ae b = Ok r -> se <= FAR_FUTURE_EPOCH -> ae <= FAR_FUTURE_EPOCH ->
  ae <= fst r /\ fst r <= FAR_FUTURE_EPOCH.
Proof.
  intros Hc H Hse Hae. unfold churn_step in H. rinv H. subst r. cbn [fst].
  match goal with H : (if ?c then _ else _) = Ok ?x |- _ => destruct c; rinv H; subst x end; cbn [fst].
  - match goal with H : add E (N.max _ _) _ = Ok _ |- _ => apply (add_checked _ _ _ Hc) in H as [-> H] end. rewrite far_is in *. lia.
  - lia.
Qed.
(** the computation of an electra exit or consolidation epoch *)
Lemma churn_run (m : St BeaconState N) s : well_formed s ->
  (exists b, m = compute_exit_epoch_and_update_churn E b) \/ (exists b, m = compute_consolidation_epoch_and_update_churn E b) ->
  well_formed (snd (m s)) /\ validators (snd (m s)) = validators s
  /\ (forall q, fst (m s) = Ok q -> chk E = true -> epoch_of E s < q /\ q <= FAR_FUTURE_EPOCH).
Proof.
  intros Hs [[b ->]|[b ->]].
  - unfold compute_exit_epoch_and_update_churn, sbind, rd.
    match goal with |- context [match ?x with Ok _ => _ | _ => _ end] => destruct x as [r| | |] eqn:Hr end; cbn [snd fst md];
      try (split; [exact Hs|split; [reflexivity|intros; discriminate]]).
    rinv Hr.
    assert (Hq : chk E = true -> epoch_of E s < fst r /\ fst r <= FAR_FUTURE_EPOCH).
    { intros Hc. apply cur_epoch in Hr0. subst.
      match goal with H : compute_activation_exit_epoch E _ = Ok _ |- _ => apply (act_exit _ _ Hc) in H as [Ha Hb] end.
      apply (churn_after _ _ _ _ _ _ Hc) in Hr; [lia| |exact Hb]. apply (n_queue _ _ _ Hs Hc). }
    split; [|split; [gs; reflexivity|intros q H; injection H as <-; exact Hq]].
    destruct Hs as [L [R1 R2 R3 R4] Z S P Q V]. constructor; gs; try assumption.
    { constructor; gs; assumption. }
    intros Hc. unfold queue_epochs in *. gs. split; [apply Hq; exact Hc|apply Q; exact Hc].
  - unfold compute_consolidation_epoch_and_update_churn, sbind, rd.
    match goal with |- context [match ?x with Ok _ => _ | _ => _ end] => destruct x as [r| | |] eqn:Hr end; cbn [snd fst md];
      try (split; [exact Hs|split; [reflexivity|intros; discriminate]]).
    rinv Hr.
    assert (Hq : chk E = true -> epoch_of E s < fst r /\ fst r <= FAR_FUTURE_EPOCH).
    { intros Hc. apply cur_epoch in Hr0. subst.
      match goal with H : compute_activation_exit_epoch E _ = Ok _ |- _ => apply (act_exit _ _ Hc) in H as [Ha Hb] end.
      apply (churn_after _ _ _ _ _ _ Hc) in Hr; [lia| |exact Hb]. apply (n_queue _ _ _ Hs Hc). }
    split; [|split; [gs; reflexivity|intros q H; injection H as <-; exact Hq]].
    destruct Hs as [L [R1 R2 R3 R4] Z S P Q V]. constructor; gs; try assumption.
    { constructor; gs; assumption. }
    intros Hc. unfold queue_epochs in *. gs. split; [apply Q; exact Hc|apply Hq; exact Hc].
Qed.

(** giving a validator that is not exiting an exit epoch *)
Lemma exit_tail {B} s i v q (r : res N) (k : unit -> St BeaconState B) : nthN (validators s) i = Some v -> v_exit_epoch v = FAR_FUTURE_EPOCH ->
  (chk E = true -> v_activation_epoch v < q /\ q <= FAR_FUTURE_EPOCH) ->
  (forall w, r = Ok w -> chk E = true -> q <= w /\ w <= FAR_FUTURE_EPOCH) ->
  well_formed s ->
  (forall w t, r = Ok w -> well_formed t -> t = set_validators (updN (validators s) i (set_v_withdrawable_epoch w (set_v_exit_epoch q v))) s -> well_formed (snd (k tt t))) ->
  well_formed (snd ((mod_validator i (set_v_exit_epoch q) ;; let* w := lift r in mod_validator i (set_v_withdrawable_epoch w) ;; k tt) s)).
Proof.
  intros Hv Hx Hq Hr Hs Hk.
  rewrite (run_bind _ _ _ _ _ (mod_validator_run s i _ v Hv)).
  assert (H1 : well_formed (set_validators (updN (validators s) i (set_v_exit_epoch q v)) s)).
  { eapply inv_upd; [exact Hv|reflexivity| |exact Hs]. intros Hc [L1 L2 L3 L4 L5 L6]. destruct (Hq Hc). constructor; gs; lia. }
  apply at_lift; [exact H1|]. intros w Hw.
  assert (Hv1 : nthN (updN (validators s) i (set_v_exit_epoch q v)) i = Some (set_v_exit_epoch q v)) by (apply nthN_updN_eq; eapply nthN_some; eauto).
  rewrite (run_bind _ _ _ _ _ (mod_validator_run (set_validators (updN (validators s) i (set_v_exit_epoch q v)) s) i _ (set_v_exit_epoch q v) Hv1)).
  assert (Heq : set_validators (updN (validators (set_validators (updN (validators s) i (set_v_exit_epoch q v)) s)) i
      (set_v_withdrawable_epoch w (set_v_exit_epoch q v))) (set_validators (updN (validators s) i (set_v_exit_epoch q v)) s)
    = set_validators (updN (validators s) i (set_v_withdrawable_epoch w (set_v_exit_epoch q v))) s).
  { gs. rewrite updN_updN. destruct s; reflexivity. }
  rewrite Heq. apply (Hk w); [exact Hw| |reflexivity].
  eapply inv_upd; [exact Hv|reflexivity| |exact Hs]. intros Hc [L1 L2 L3 L4 L5 L6]. destruct (Hq Hc). destruct (Hr w Hw Hc). constructor; gs; lia.
Qed.

Lemma cadd_le q w D : ok_or (cadd q D) EOverflow = Ok w -> q <= w /\ w <= FAR_FUTURE_EPOCH /\ w = q + D.
Proof. unfold cadd. destruct (N.ltb_spec (q + D) U64); cbn; [|discriminate]. intros H'. injection H' as <-. rewrite far_is. lia. Qed.
(** exits are initiated only for activated validators *)
Definition activated (s : BeaconState) (i : N) : Prop :=
  chk E = true -> forall v, nthN (validators s) i = Some v -> v_activation_epoch v <= epoch_of E s.
Definition leaving (s : BeaconState) (i : N) : Prop :=
  chk E = true -> forall v, nthN (validators s) i = Some v -> v_exit_epoch v <> FAR_FUTURE_EPOCH.

Lemma upd_leaving s i v q w : nthN (validators s) i = Some v -> (chk E = true -> q < FAR_FUTURE_EPOCH) ->
  leaving (set_validators (updN (validators s) i (set_v_withdrawable_epoch w (set_v_exit_epoch q v))) s) i.
Proof.
  intros Hv Hq Hc v' Hv'. gsh Hv'. rewrite nthN_updN_eq in Hv' by (eapply nthN_some; eauto). injection Hv' as <-. gs. specialize (Hq Hc). lia.
Qed.
Lemma at_initiate i s : well_formed s -> activated s i ->
  well_formed (snd (initiate_validator_exit E i s)) /\ (fst (initiate_validator_exit E i s) = Ok tt -> leaving (snd (initiate_validator_exit E i s)) i).
Proof.
  intros Hs Ha. unfold initiate_validator_exit.
  destruct (nthN (validators s) i) as [v|] eqn:Hv.
  2: { unfold sbind, rd, idx. rewrite Hv. split; [exact Hs|discriminate]. }
  assert (Hi : idx (validators s) i = Ok v) by (unfold idx; rewrite Hv; reflexivity).
  rewrite (run_rd (fun s0 : BeaconState => idx (validators s0) i) _ _ v Hi). destruct (N.eqb_spec (v_exit_epoch v) FAR_FUTURE_EPOCH) as [Hx|Hx]; cbn [negb].
  2: { split; [exact Hs|]. intros _ Hc v' Hv'. cbn [sret snd] in Hv'. congruence. }
  destruct (exit_queue_epoch E s) as [q| | |] eqn:Hq; try (unfold sbind, rd; rewrite Hq; split; [exact Hs|discriminate]).
  rewrite (run_rd _ _ _ q Hq).
  assert (Hb : chk E = true -> v_activation_epoch v < q /\ q <= FAR_FUTURE_EPOCH).
  { intros Hc. apply (queue_after s q Hc Hs) in Hq. specialize (Ha Hc v Hv). lia. }
  set (r := ok_or (cadd q (MIN_VALIDATOR_WITHDRAWABILITY_DELAY E)) EOverflow).
  pose proof (exit_tail s i v q r (fun _ => sret tt) Hv Hx Hb) as T.
  assert (Hr : forall w, r = Ok w -> chk E = true -> q <= w /\ w <= FAR_FUTURE_EPOCH) by (intros w Hw _; apply cadd_le in Hw; tauto).
  specialize (T Hr Hs (fun w t _ Ht _ => Ht)). cbn beta in T.
  revert T. rewrite !(run_bind _ _ _ _ _ (mod_validator_run s i _ v Hv)).
  destruct r as [w| | |] eqn:Hw; unfold sbind, lift; cbn [fst snd]; try (intros T; split; [exact T|discriminate]).
  assert (Hv1 : nthN (updN (validators s) i (set_v_exit_epoch q v)) i = Some (set_v_exit_epoch q v)) by (apply nthN_updN_eq; eapply nthN_some; eauto).
  rewrite (mod_validator_run (set_validators (updN (validators s) i (set_v_exit_epoch q v)) s) i _ (set_v_exit_epoch q v) Hv1).
  cbn [fst snd sret]. intros T. split; [exact T|]. intros _.
  intros Hc v' Hv'. gsh Hv'. rewrite updN_updN in Hv'. rewrite nthN_updN_eq in Hv' by (eapply nthN_some; eauto). injection Hv' as <-. gs.
  subst r. apply cadd_le in Hw. lia.
Qed.
Lemma at_initiate_electra i s : well_formed s -> activated s i ->
  well_formed (snd (initiate_validator_exit_electra E i s)) /\ (fst (initiate_validator_exit_electra E i s) = Ok tt -> leaving (snd (initiate_validator_exit_electra E i s)) i).
Proof.
  intros Hs Ha. unfold initiate_validator_exit_electra.
  destruct (nthN (validators s) i) as [v|] eqn:Hv.
  2: { unfold sbind, rd, idx. rewrite Hv. split; [exact Hs|discriminate]. }
  assert (Hi : idx (validators s) i = Ok v) by (unfold idx; rewrite Hv; reflexivity).
  rewrite (run_rd (fun s0 : BeaconState => idx (validators s0) i) _ _ v Hi). destruct (N.eqb_spec (v_exit_epoch v) FAR_FUTURE_EPOCH) as [Hx|Hx]; cbn [negb].
  2: { split; [exact Hs|]. intros _ Hc v' Hv'. cbn [sret snd] in Hv'. congruence. }
  destruct (churn_run _ s Hs (or_introl (ex_intro _ (v_effective_balance v) eq_refl))) as (H1 & H2 & H3).
  destruct (compute_exit_epoch_and_update_churn E (v_effective_balance v) s) as [[q| | |] s1] eqn:Hm; cbn [fst snd] in *;
    try (unfold sbind; rewrite Hm; split; [exact H1|discriminate]).
  rewrite !(run_bind _ _ _ _ _ Hm).
  rewrite <- H2 in Hv.
  assert (Hb : chk E = true -> v_activation_epoch v < q /\ q <= FAR_FUTURE_EPOCH).
  { intros Hc. specialize (H3 q eq_refl Hc). rewrite H2 in Hv. specialize (Ha Hc v Hv). lia. }
  set (r := ok_or (cadd q (MIN_VALIDATOR_WITHDRAWABILITY_DELAY E)) EOverflow).
  pose proof (exit_tail s1 i v q r (fun _ => sret tt) Hv Hx Hb) as T.
  assert (Hr : forall w, r = Ok w -> chk E = true -> q <= w /\ w <= FAR_FUTURE_EPOCH) by (intros w Hw _; apply cadd_le in Hw; tauto).
  specialize (T Hr H1 (fun w t _ Ht _ => Ht)). cbn beta in T.
  revert T. rewrite !(run_bind _ _ _ _ _ (mod_validator_run s1 i _ v Hv)).
  destruct r as [w| | |] eqn:Hw; unfold sbind, lift; cbn [fst snd]; try (intros T; split; [exact T|discriminate]).
  assert (Hv1 : nthN (updN (validators s1) i (set_v_exit_epoch q v)) i = Some (set_v_exit_epoch q v)) by (apply nthN_updN_eq; eapply nthN_some; eauto).
  rewrite (mod_validator_run (set_validators (updN (validators s1) i (set_v_exit_epoch q v)) s1) i _ (set_v_exit_epoch q v) Hv1).
  cbn [fst snd sret]. intros T. split; [exact T|]. intros _.
  intros Hc v' Hv'. gsh Hv'. rewrite updN_updN in Hv'. rewrite nthN_updN_eq in Hv' by (eapply nthN_some; eauto). injection Hv' as <-. gs.
  subst r. apply cadd_le in Hw. lia.
Qed.
Lemma at_exit i s : well_formed s -> activated s i ->
  well_formed (snd (initiate_exit E f i s)) /\ (fst (initiate_exit E f i s) = Ok tt -> leaving (snd (initiate_exit E f i s)) i).
Proof.
  intros Hs Ha. pose proof (at_initiate i s Hs Ha) as H1. pose proof (at_initiate_electra i s Hs Ha) as H2. unfold initiate_exit. destruct f; assumption.
Qed.

Lemma at_slash i wb s : well_formed s -> activated s i -> well_formed (snd (slash_validator E f i wb s)).
Proof.
  intros Hs Ha. unfold slash_validator. apply at_rd; [exact Hs|]. intros e He. apply cur_epoch in He. subst e.
  destruct (at_exit i s Hs Ha) as [H1 H2].
  unfold sbind at 1. destruct (initiate_exit E f i s) as [[u| | |] s1]; cbn [fst snd] in *; try exact H1. destruct u. specialize (H2 eq_refl).
  apply at_bind.
  { apply inv_mod; [|exact H1]. intros v Hv. split; [reflexivity|]. intros Hc [L1 L2 L3 L4 L5 L6]. specialize (H2 Hc v Hv).
    constructor; gs; auto. }
  intros _ s2 _ Hs2. apply at_lift; [exact Hs2|]. intros lim Hlim. apply at_bind.
  { apply inv_mod; [|exact Hs2]. intros v Hv. split; [reflexivity|]. intros Hc [L1 L2 L3 L4 L5 L6].
    apply (add_checked _ _ _ Hc) in Hlim as [_ Hlim]. rewrite far_is in *. constructor; gs; try assumption; rewrite ?far_is; lia. }
  intros _ s3 _ Hs3. revert s3 Hs3.
  match goal with |- forall s, _ -> well_formed (snd (?m s)) => change (hold m) end. hh.
Qed.

(** ** Queues *)
Lemma In_skipN {A} n (l : list A) x : In x (skipN n l) -> In x l.
Proof. unfold skipN. intros H. rewrite <- (firstn_skipn (N.to_nat n) l). apply in_or_app. right; exact H. Qed.
Lemma inv_pbd s x : (forall d, In d x -> In d (pending_balance_deposits s) \/ pbd_index d < lenN (validators s)) -> well_formed s -> well_formed (set_pending_balance_deposits x s).
Proof.
  intros H [L [R1 R2 R3 R4] Z S P Q V]. constructor; gs; try assumption. constructor; gs; try assumption. intros d Hd. destruct (H d Hd); auto.
Qed.
Lemma inv_ppw s x : (forall d, In d x -> In d (pending_partial_withdrawals s) \/ ppw_index d < lenN (validators s)) -> well_formed s -> well_formed (set_pending_partial_withdrawals x s).
Proof.
  intros H [L [R1 R2 R3 R4] Z S P Q V]. constructor; gs; try assumption. constructor; gs; try assumption. intros d Hd. destruct (H d Hd); auto.
Qed.
Lemma inv_pc s x : (forall d, In d x -> In d (pending_consolidations s) \/ (pc_source_index d < lenN (validators s) /\ pc_target_index d < lenN (validators s))) ->
  well_formed s -> well_formed (set_pending_consolidations x s).
Proof.
  intros H [L [R1 R2 R3 R4] Z S P Q V]. constructor; gs; try assumption. constructor; gs; try assumption. intros d Hd. destruct (H d Hd); auto.
Qed.
Lemma inv_nwvi s x : x < lenN (validators s) -> well_formed s -> well_formed (set_next_withdrawal_validator_index x s).
Proof.
  intros H [L [R1 R2 R3 R4] Z S P Q V]. constructor; gs; try assumption.
  - constructor; gs; auto.
  - intros Hn. rewrite Hn in H. change (lenN (@nil Validator)) with 0 in H. lia.
Qed.
Lemma hd_excess i : hold (queue_excess_active_balance E i).
Proof.
  unfold queue_excess_active_balance. apply hd_rd_bind. intros s b Hs Hb. apply idx_ok, nthN_some in Hb. destruct (_ <? _); [|exact Hs].
  apply at_lift; [exact Hs|]. intros x _. apply at_md. cbn [md snd]. apply inv_pbd; gs.
  - intros d Hd. apply in_app_or in Hd as [Hd|[<-|[]]]; [left; exact Hd|right]. cbn [pbd_index]. rewrite <- (n_len _ _ _ Hs). exact Hb.
  - irr s Hs.
Qed.
Hint Resolve hd_excess : reach.
Lemma hd_switch i : hold (switch_to_compounding_validator E i).
Proof.
  unfold switch_to_compounding_validator. hh. apply hd_mod. intros v. split; [reflexivity|]. intros [L1 L2 L3 L4 L5 L6]. constructor; gs; assumption.
Qed.
Hint Resolve hd_switch : reach.

(** ** Block processing *)
Lemma hd_proposer_slashing op : hold (process_proposer_slashing E f op).
Proof.
  unfold process_proposer_slashing. apply hd_rd_bind. intros s i Hs Hi. apply at_slash; [exact Hs|]. unfold proposer_slashing_checks in Hi. rinv Hi. subst i.
  intros Hc v Hv. match goal with H : nthN (validators s) _ = Some ?w |- _ => rewrite H in Hv; injection Hv as -> end.
  match goal with H : get_current_epoch E s = Ok _ |- _ => apply cur_epoch in H; subst end.
  match goal with H : is_slashable_validator _ _ = true |- _ => unfold is_slashable_validator in H end. lia.
Qed.
Lemma slash_slot i wb s : slot (snd (slash_validator E f i wb s)) = slot s.
Proof. apply (frame_slot E f LBlock); [apply evp_slash|discriminate]. Qed.
Lemma hd_attester_slashing op : hold (process_attester_slashing E f op).
Proof.
  unfold process_attester_slashing. apply hd_bind; [apply hd_rd|]. intros is. apply hd_rd_bind. intros s cur Hs Hcur. apply cur_epoch in Hcur.
  assert (H : pres (fun s t => well_formed s /\ epoch_of E s = cur -> well_formed t /\ epoch_of E t = cur) (sfold (fun b i =>
        let* v := rd (fun s => idx (validators s) i) in
        if is_slashable_validator v cur then slash_validator E f i None ;; sret true else sret b) is false)).
  { apply pres_fold; [auto|auto|]. intros b i. apply pres_rd_bind; [auto|]. intros t v Hv [Ht He]. apply idx_ok in Hv.
    destruct (is_slashable_validator v cur) eqn:Hsl; [|split; assumption]. unfold sbind.
    pose proof (at_slash i None t Ht) as H1. pose proof (slash_slot i None t) as H2.
    destruct (slash_validator E f i None t) as [[u| | |] t']; cbn [snd sret] in *; (split; [apply H1|unfold epoch_of in *; congruence]);
      intros Hc w Hw; assert (w = v) by congruence; subst w; rewrite He; unfold is_slashable_validator in Hsl; lia. }
  specialize (H s (conj Hs (eq_sym Hcur))). apply at_bind; [apply H|]. intros b t _ Ht. exact Ht.
Qed.
Lemma hd_attestation a : hold (process_attestation E f a).
Proof.
  assert (H : hold (process_attestation_altair E f a)).
  { unfold process_attestation_altair, attestation_flag_step. hh. unfold set_participation.
    match goal with |- context [if ?b then set_current_epoch_participation _ _ else _] => destruct b end; irr s Hs. }
  unfold process_attestation. destruct f; try exact H. unfold process_attestation_phase0. hh.
Qed.
Lemma far_life v : v_activation_eligibility_epoch v = FAR_FUTURE_EPOCH -> v_activation_epoch v = FAR_FUTURE_EPOCH ->
  v_exit_epoch v = FAR_FUTURE_EPOCH -> v_withdrawable_epoch v = FAR_FUTURE_EPOCH -> v_slashed v = false -> lifecycle v.
Proof. intros H1 H2 H3 H4 H5. constructor; rewrite ?H1, ?H2, ?H3, ?H4, ?H5; try lia; congruence. Qed.
Lemma hd_add_validator g pk wc amount : hold (add_validator_to_registry E g pk wc amount).
Proof.
  unfold add_validator_to_registry.
  assert (H : hold (let* v := lift (get_validator_from_deposit E pk wc amount) in
    md (fun s => set_balances (balances s ++ [amount]) (set_validators (validators s ++ [v]) s)) ;;
    swhen (fork_le Altair g)
      (md (fun s => set_inactivity_scores (inactivity_scores s ++ [0])
             (set_current_epoch_participation (current_epoch_participation s ++ [0])
             (set_previous_epoch_participation (previous_epoch_participation s ++ [0]) s)))))).
  { intros s Hs. apply at_lift; [exact Hs|]. intros v Hv. unfold get_validator_from_deposit in Hv. rinv Hv. subst v.
    apply at_bind; [|intros _ t _ Ht; revert t Ht; match goal with |- forall s, _ -> well_formed (snd (?m s)) => change (hold m) end; solve [hh]].
    cbn [md snd]. eapply (inv_new E h s); [gs; reflexivity..|apply far_life; reflexivity|exact Hs]. }
  assert (He : hold (md (fun s => set_pending_balance_deposits (pending_balance_deposits s ++ [mkPBD (lenN (validators s)) amount])
         (set_inactivity_scores (inactivity_scores s ++ [0])
         (set_current_epoch_participation (current_epoch_participation s ++ [0])
         (set_previous_epoch_participation (previous_epoch_participation s ++ [0])
         (set_balances (balances s ++ [0])
         (set_validators (validators s ++ [get_validator_from_deposit_electra pk wc]) s)))))))).
  2: { destruct g; first [exact H|exact He]. }
  clear H. apply hd_md. intros s Hs.
  match goal with |- well_formed (set_pending_balance_deposits ?x ?t) => set (t0 := t) end.
  assert (Ht : well_formed t0) by (eapply (inv_new E h s); [unfold t0; gs; reflexivity..|apply far_life; reflexivity|exact Hs]).
  apply inv_pbd; [|exact Ht]. intros d Hd. unfold t0. gs. apply in_app_or in Hd as [Hd|[<-|[]]]; [left; exact Hd|right].
  cbn [pbd_index]. rewrite lenN_app, lenN_cons. lia.
Qed.
Hint Resolve hd_add_validator : reach.

Lemma position_lt pk : forall vs k i, position_pk pk vs k = Some i -> i < k + lenN vs.
Proof.
  induction vs as [|v vs IH]; intros k i H; cbn [position_pk] in H; [discriminate|]. rewrite lenN_cons.
  destruct (bytes_eqb _ _); [injection H as <-; lia|]. apply IH in H. lia.
Qed.
Lemma hd_apply_deposit pk wc amount sg : hold (apply_deposit E f pk wc amount sg).
Proof.
  assert (H : hold (apply_deposit_electra E pk wc amount sg)).
  { unfold apply_deposit_electra. apply hd_rd_bind. intros s o Hs Ho. injection Ho as Ho. subst o.
    destruct (position_pk pk (validators s) 0) as [i|] eqn:Hp.
    - apply position_lt in Hp. apply at_bind.
      + cbn [md snd]. apply inv_pbd; [|exact Hs]. intros d Hd. apply in_app_or in Hd as [Hd|[<-|[]]]; [left; exact Hd|right; cbn [pbd_index]; lia].
      + intros _ t _ Ht. revert t Ht. match goal with |- forall s, _ -> well_formed (snd (?m s)) => change (hold m) end. hh.
    - unfold sbind, lift. destruct (is_valid_deposit_signature E pk wc amount sg); try exact Hs.
      apply hd_add_validator; exact Hs. }
  assert (H' : hold (apply_deposit_phase0 E f pk wc amount sg)) by (unfold apply_deposit_phase0; hh).
  unfold apply_deposit. destruct f; first [exact H|exact H'].
Qed.
Lemma hd_apply_deposit_electra pk wc amount sg : f = Electra -> hold (apply_deposit E Electra pk wc amount sg).
Proof. intros Hf. pose proof (hd_apply_deposit pk wc amount sg) as H. rewrite Hf in H. exact H. Qed.
Hint Resolve hd_apply_deposit hd_apply_deposit_electra : reach.
Lemma hd_deposit d : hold (process_deposit E f d).
Proof. unfold process_deposit. hh. Qed.
Lemma hd_receipt r : f = Electra -> hold (process_deposit_receipt E r).
Proof.
  intros Hf. unfold process_deposit_receipt. hh.
  match goal with |- context [if ?c then _ else _] => destruct c end; [irr s Hs|exact Hs].
Qed.
Lemma active_activated s i v e : get_current_epoch E s = Ok e -> nthN (validators s) i = Some v -> is_active_validator v e = true -> activated s i.
Proof. intros He Hv Ha Hc w Hw. apply cur_epoch in He. subst e. assert (w = v) by congruence. subst w. unfold is_active_validator in Ha. lia. Qed.
Lemma hd_voluntary_exit op : hold (process_voluntary_exit E f op).
Proof.
  unfold process_voluntary_exit. apply hd_rd_bind. intros s i Hs Hi. apply at_exit; [exact Hs|]. unfold voluntary_exit_checks in Hi.
  apply rbind_ok_inv in Hi as (v & Hv & Hi). apply rbind_ok_inv in Hi as (e & He & Hi). apply rbind_ok_inv in Hi as (u & Ha & Hi). apply require_ok in Ha.
  assert (Hidx : i = ve_validator_index (sve_message op)).
  { repeat (apply rbind_ok_inv in Hi as (? & _ & Hi)). injection Hi as <-. reflexivity. }
  subst i. eapply active_activated; eauto. unfold getN in Hv. destruct (nthN _ _); [injection Hv as ->; reflexivity|discriminate].
Qed.
Lemma hd_header b : hold (process_block_header E f b).
Proof. unfold process_block_header. hh. Qed.
Lemma hd_randao b : hold (process_randao E b).
Proof. unfold process_randao. hh. Qed.
Lemma hd_eth1 b : hold (process_eth1_data E b).
Proof. unfold process_eth1_data. hh. Qed.
Lemma hd_sync sa : hold (process_sync_aggregate E sa).
Proof. unfold process_sync_aggregate, sync_step. hh. Qed.
Lemma hd_payload b : hold (process_execution_payload E f b).
Proof. unfold process_execution_payload. hh. Qed.
Lemma umod_lt x n r : umod x n = Ok r -> r < n.
Proof. unfold umod. destruct (N.eqb_spec n 0); [discriminate|]. intros H. injection H as <-. apply N.mod_lt. assumption. Qed.
Lemma hd_withdrawals p : hold (process_withdrawals E f p).
Proof.
  unfold process_withdrawals. apply hd_bind; [apply hd_rd|]. intros e. cbn zeta.
  apply hd_bind; [solve [hh]|]. intros _.
  apply hd_bind.
  { apply hd_when. apply hd_bind; [apply hd_rd|]. intros _. apply hd_md. intros s Hs. apply inv_ppw; [|exact Hs]. intros d Hd. left. eapply In_skipN; eauto. }
  intros _. apply hd_bind; [solve [hh]|]. intros _.
  destruct (_ =? _).
  - destruct (last_opt (fst e)) as [w|]; [|solve [hh]]. apply hd_bind; [apply hd_lift|]. intros i1. apply hd_rd_bind. intros s i Hs Hi. cbn [md snd].
    apply inv_nwvi; [eapply umod_lt; eauto|exact Hs].
  - apply hd_rd_bind. intros s i Hs Hi. cbn [md snd]. rinv Hi. apply inv_nwvi; [eapply umod_lt; eauto|exact Hs].
Qed.
Lemma hd_bls_change op : hold (process_bls_to_execution_change E op).
Proof.
  unfold process_bls_to_execution_change. apply hd_bind; [apply hd_rd|]. intros i. apply hd_mod. intros v. split; [reflexivity|].
  intros [L1 L2 L3 L4 L5 L6]. constructor; gs; assumption.
Qed.
Lemma hd_withdrawal_request r : hold (process_execution_layer_withdrawal_request E r).
Proof.
  unfold process_execution_layer_withdrawal_request. apply hd_rd_bind. intros s a Hs Ha.
  assert (Hx : match a with WNothing => True | WExit i => activated s i | WPartial i _ => i < lenN (validators s) end).
  { unfold withdrawal_request_action in Ha. destruct (_ && _); [injection Ha as <-; exact I|].
    destruct (position_pk _ _ _) as [i|] eqn:Hp; [|injection Ha as <-; exact I]. apply position_lt in Hp.
    apply rbind_ok_inv in Ha as (v & Hv & Ha). apply idx_ok in Hv. destruct (negb _); [injection Ha as <-; exact I|].
    apply rbind_ok_inv in Ha as (e & He & Ha). destruct (is_active_validator v e) eqn:Hact; cbn [negb] in Ha; [|injection Ha as <-; exact I].
    destruct (negb _); [injection Ha as <-; exact I|]. apply rbind_ok_inv in Ha as (m & Hm & Ha).
    destruct (_ <? _); [injection Ha as <-; exact I|]. apply rbind_ok_inv in Ha as (pd & _ & Ha).
    destruct (_ =? FULL_EXIT_REQUEST_AMOUNT).
    - destruct (pd =? 0); injection Ha as <-; [|exact I]. eapply active_activated; eauto.
    - apply rbind_ok_inv in Ha as (b & _ & Ha). apply rbind_ok_inv in Ha as (fl & _ & Ha). destruct (_ && _); [|injection Ha as <-; exact I].
      apply rbind_ok_inv in Ha as (x & _ & Ha). apply rbind_ok_inv in Ha as (y & _ & Ha). injection Ha as <-. lia. }
  destruct a as [|i|i amount]; [exact Hs|apply at_initiate_electra; assumption|].
  destruct (churn_run _ s Hs (or_introl (ex_intro _ amount eq_refl))) as (H1 & H2 & _).
  apply at_bind; [exact H1|]. intros q t Ht Hit. rewrite Ht in H2. cbn [snd] in H2. apply at_lift; [exact Hit|]. intros w _. cbn [md snd].
  apply inv_ppw; [|exact Hit]. intros d Hd. apply in_app_or in Hd as [Hd|[<-|[]]]; [left; exact Hd|right]. cbn [ppw_index]. rewrite H2. exact Hx.
Qed.
Lemma hd_consolidation op : hold (process_consolidation E op).
Proof.
  unfold process_consolidation. cbn zeta. apply hd_rd_bind. intros s [src tgt] Hs Hr. cbn [fst].
  unfold consolidation_checks in Hr. rinv Hr. injection Hr as -> ->.
  match goal with H : (v_exit_epoch src =? FAR_FUTURE_EPOCH) = true |- _ => apply N.eqb_eq in H; rename H into Hfar end.
  destruct (churn_run _ s Hs (or_intror (ex_intro _ (v_effective_balance src) eq_refl))) as (H1 & H2 & H3).
  apply at_bind; [exact H1|]. intros q t Ht Hit. rewrite Ht in H2, H3. cbn [fst snd] in H2, H3.
  match goal with H : nthN (validators s) (cn_source_index _) = Some src |- _ => rename H into Hsrc end.
  match goal with H : nthN (validators s) (cn_target_index _) = Some tgt |- _ => rename H into Htgt end.
  apply (exit_tail t (cn_source_index (scn_message op)) src q _ (fun _ => md (fun s => set_pending_consolidations
    (pending_consolidations s ++ [mkPC (cn_source_index (scn_message op)) (cn_target_index (scn_message op))]) s))).
  - rewrite H2. exact Hsrc.
  - exact Hfar.
  - intros Hc. specialize (H3 q eq_refl Hc).
    match goal with Ha : is_active_validator src _ = true, He : get_current_epoch E s = Ok _ |- _ =>
      pose proof (active_activated s _ src _ He Hsrc Ha Hc src Hsrc) end. lia.
  - intros w Hw Hc. apply (add_checked _ _ _ Hc) in Hw as [-> Hw]. rewrite Hfar, far_is in *. lia.
  - exact Hit.
  - intros w u Hw Hu ->. cbn [md snd]. apply inv_pc; [|exact Hu]. gs. rewrite lenN_updN, H2. intros d Hd.
    apply in_app_or in Hd as [Hd|[<-|[]]]; [left; exact Hd|right]. cbn [pc_source_index pc_target_index].
    split; eapply nthN_some; eauto.
Qed.
Hint Resolve hd_proposer_slashing hd_attester_slashing hd_attestation hd_deposit hd_receipt hd_voluntary_exit hd_header
  hd_randao hd_eth1 hd_sync hd_payload hd_withdrawals hd_bls_change hd_withdrawal_request hd_consolidation : reach.
Lemma hd_operations b : hold (process_operations E f b).
Proof.
  unfold process_operations.
  do 7 (apply hd_bind; [solve [hh]|intros _]).
  apply hd_when_true; intros Hc. apply fork_le_electra in Hc. solve [hh].
Qed.
Hint Resolve hd_operations : reach.
Lemma hd_block b : hold (process_block E f b).
Proof.
  unfold process_block. cbn zeta. apply hd_bind; [solve [hh]|]. intros _. apply hd_bind; [|intros _; solve [hh]].
  assert (H1 : hold (let* en := rd (fun s => Ok (is_execution_enabled E s (bk_body b))) in swhen en (process_execution_payload E f (bk_body b)))) by hh.
  assert (H2 : hold (process_withdrawals E f (bb_execution_payload (bk_body b)) ;; process_execution_payload E f (bk_body b))) by hh.
  destruct f; first [exact H1|exact H2|apply hd_ret].
Qed.

(** ** Epoch processing *)
Lemma inv_cps s p c z t : (chk E = true -> cp_epoch p <= epoch_of E s /\ cp_epoch c <= epoch_of E s /\ cp_epoch z <= epoch_of E s) ->
  previous_justified_checkpoint t = p -> current_justified_checkpoint t = c -> finalized_checkpoint t = z ->
  validators t = validators s -> balances t = balances s ->
  pending_balance_deposits t = pending_balance_deposits s -> pending_partial_withdrawals t = pending_partial_withdrawals s ->
  pending_consolidations t = pending_consolidations s -> next_withdrawal_validator_index t = next_withdrawal_validator_index s ->
  current_sync_committee t = current_sync_committee s -> next_sync_committee t = next_sync_committee s -> slot t = slot s ->
  earliest_exit_epoch t = earliest_exit_epoch s ->
  earliest_consolidation_epoch t = earliest_consolidation_epoch s -> well_formed s -> well_formed t.
Proof.
  intros Hn Hp Hcj Hz H1 H2 H3 H4 H5 H6 H7 H8 H9 Hd He [L [R1 R2 R3 R4] Z S P Q V]. constructor.
  - rewrite H1, H2. exact L.
  - constructor; rewrite H1; [rewrite H3|rewrite H4|rewrite H5|rewrite H6]; assumption.
  - rewrite H1, H6. exact Z.
  - unfold committee_valid in *. rewrite H1, H7, H8. exact S.
  - unfold checkpoints_past, epoch_of in *. rewrite H9, Hp, Hcj, Hz. exact Hn.
  - unfold queue_epochs in *. rewrite Hd, He. exact Q.
  - rewrite H1. exact V.
Qed.
(** the finality gadget works within one epoch *)
Definition now (cur : N) (s : BeaconState) : Prop := well_formed s /\ epoch_of E s = cur.
Definition holdn {A} (cur : N) (m : St BeaconState A) : Prop := pres (fun s t => now cur s -> now cur t) m.
Lemma hn_bind {A B} cur (m : St BeaconState A) (k : A -> St BeaconState B) : holdn cur m -> (forall a, holdn cur (k a)) -> holdn cur (sbind m k).
Proof. apply pres_bind. auto. Qed.
Lemma hn_hold {A} cur (m : St BeaconState A) : hold m -> (forall s, slot (snd (m s)) = slot s) -> holdn cur m.
Proof. intros H Hsl s [Hs He]. split; [apply H; exact Hs|]. unfold epoch_of in *. rewrite Hsl. exact He. Qed.
Lemma hn_ret {A} cur (m : St BeaconState A) : (forall s, snd (m s) = s) -> holdn cur m.
Proof. intros H s Hs. rewrite H. exact Hs. Qed.
Lemma hn_when cur c m : holdn cur m -> holdn cur (swhen c m).
Proof. apply pres_when. auto. Qed.
Lemma prev_le s e cur : get_previous_epoch E s = Ok e -> epoch_of E s = cur -> chk E = true -> e <= cur.
Proof.
  intros H Hc Hchk. unfold get_previous_epoch in H. rinv H. apply cur_epoch in H0. subst.
  destruct (_ =? _); [injection H as <-; unfold GENESIS_EPOCH; lia|]. unfold sub, usub in H. rewrite Hchk in H. destruct (1 <=? _); [injection H as <-; lia|discriminate].
Qed.
Lemma hn_justify cur e b : (chk E = true -> e <= cur) -> holdn cur (justify E e b).
Proof.
  intros He s [Hs Hcur]. unfold justify, sbind, rd. destruct (get_block_root E s e) as [r| | |]; try (split; assumption). cbn [md snd].
  split; [|unfold epoch_of in *; gs; exact Hcur].
  eapply (inv_cps s); [|gs; reflexivity..|exact Hs]. intros Hc. destruct (n_past _ _ _ Hs Hc) as (A1 & A2 & A3). specialize (He Hc). cbn [cp_epoch]. rewrite Hcur in *. lia.
Qed.
Lemma hn_finalize cur lo n cp d c : (chk E = true -> cp_epoch cp <= cur) -> holdn cur (finalize_if E lo n cp d c).
Proof.
  intros Hcp. unfold finalize_if. apply hn_bind; [apply hn_ret; reflexivity|]. intros b. apply hn_when. intros s [Hs Hcur]. cbn [md snd].
  split; [|unfold epoch_of in *; gs; exact Hcur].
  eapply (inv_cps s); [|gs; reflexivity..|exact Hs]. intros Hc. destruct (n_past _ _ _ Hs Hc) as (A1 & A2 & A3). specialize (Hcp Hc). rewrite Hcur in *. lia.
Qed.
Lemma hd_weigh t p c : hold (weigh_justification_and_finalization E t p c).
Proof.
  unfold weigh_justification_and_finalization.
  apply hd_rd_bind. intros s prev Hs Hprev. apply at_rd; [exact Hs|]. intros cur Hcur.
  apply at_rd; [exact Hs|]. intros oprev Ho. apply Ok_inj in Ho. apply at_rd; [exact Hs|]. intros ocur Ho'. apply Ok_inj in Ho'.
  apply cur_epoch in Hcur. assert (Hnow : now cur s) by (split; [exact Hs|symmetry; exact Hcur]).
  assert (B1 : chk E = true -> prev <= cur) by (intros Hc; eapply prev_le; eauto).
  assert (B2 : chk E = true -> cp_epoch oprev <= cur) by (intros Hc; subst; apply (n_past _ _ _ Hs Hc)).
  assert (B3 : chk E = true -> cp_epoch ocur <= cur) by (intros Hc; subst; apply (n_past _ _ _ Hs Hc)).
  clear Hs Hprev Ho Ho' Hcur. enough (Hx : now cur (snd ((
    md (fun s => set_previous_justified_checkpoint (current_justified_checkpoint s) s) ;;
    md (fun s => set_justification_bits (false :: firstn 3 (justification_bits s)) s) ;;
    let* p3 := lift (mul E p 3) in
    let* t2 := lift (mul E t 2) in
    swhen (t2 <=? p3) (justify E prev 1) ;;
    let* c3 := lift (mul E c 3) in
    let* t2' := lift (mul E t 2) in
    swhen (t2' <=? c3) (justify E cur 0) ;;
    finalize_if E 1 3 oprev 3 cur ;;
    finalize_if E 1 2 oprev 2 cur ;;
    finalize_if E 0 3 ocur 2 cur ;;
    finalize_if E 0 2 ocur 1 cur) s))) by apply Hx.
  revert s Hnow. match goal with |- forall s, _ -> now cur (snd (?m s)) => change (holdn cur m) end.
  apply hn_bind.
  { intros s [Hs He]. cbn [md snd]. split; [|unfold epoch_of in *; gs; exact He].
    eapply (inv_cps s); [|gs; reflexivity..|exact Hs]. intros Hc. destruct (n_past _ _ _ Hs Hc) as (A1 & A2 & A3). lia. }
  intros _. apply hn_bind; [apply hn_hold; [solve [hh]|intros s; cbn [md snd]; gs; reflexivity]|]. intros _.
  do 2 (apply hn_bind; [apply hn_ret; reflexivity|intros ?]).
  apply hn_bind; [apply hn_when, hn_justify; exact B1|]. intros _.
  do 2 (apply hn_bind; [apply hn_ret; reflexivity|intros ?]).
  apply hn_bind; [apply hn_when, hn_justify; lia|]. intros _.
  do 3 (apply hn_bind; [apply hn_finalize; assumption|intros _]). apply hn_finalize; assumption.
Qed.
Hint Resolve hd_weigh : reach.
Lemma hd_jf : hold (process_justification_and_finalization E f).
Proof. unfold process_justification_and_finalization. hh. Qed.
Lemma hd_inactivity : hold (process_inactivity_updates E).
Proof. unfold process_inactivity_updates, inactivity_update_step. hh. Qed.
Lemma hd_deltas n d : hold (apply_deltas E n d).
Proof. unfold apply_deltas. hh. Qed.
Hint Resolve hd_deltas : reach.
Lemma hd_rewards : hold (process_rewards_and_penalties E f).
Proof. unfold process_rewards_and_penalties. hh. Qed.
Lemma hd_slashings : hold (process_slashings E f).
Proof. unfold process_slashings, slashings_step. hh. Qed.
Lemma hd_eth1_reset : hold (process_eth1_data_reset E).
Proof. unfold process_eth1_data_reset. hh. Qed.
Lemma hd_effective : hold (process_effective_balance_updates E f).
Proof.
  unfold process_effective_balance_updates, effective_balance_step. hh.
  apply hd_mod. intros v. split; [reflexivity|]. intros [L1 L2 L3 L4 L5 L6]. constructor; gs; assumption.
Qed.
Lemma hd_slashings_reset : hold (process_slashings_reset E).
Proof. unfold process_slashings_reset. hh. Qed.
Lemma hd_randao_reset : hold (process_randao_mixes_reset E).
Proof. unfold process_randao_mixes_reset. hh. Qed.
Lemma hd_historical : hold (process_historical_update E f).
Proof. unfold process_historical_update. hh. Qed.
Lemma hd_records : hold process_participation_record_updates.
Proof. unfold process_participation_record_updates. hh. Qed.
Lemma hd_flags : hold process_participation_flag_updates.
Proof. unfold process_participation_flag_updates. hh. Qed.
Lemma hd_pending_loop l : forall a p c, hold (pending_deposits_loop E l a p c).
Proof. induction l as [|d l IH]; intros a p c; cbn [pending_deposits_loop]; [hh|]. hh; apply IH. Qed.
Hint Resolve hd_pending_loop : reach.
Lemma hd_pending_deposits : hold (process_pending_balance_deposits E).
Proof. unfold process_pending_balance_deposits. hh. apply inv_pbd; [|assumption]. intros d Hd. left. eapply In_skipN; eauto. Qed.
Lemma hd_consolidations_loop l : forall c, hold (pending_consolidations_loop E l c).
Proof. induction l as [|d l IH]; intros c; cbn [pending_consolidations_loop]; [hh|]. hh; try apply IH. Qed.
Hint Resolve hd_consolidations_loop : reach.
Lemma hd_pending_consolidations : hold (process_pending_consolidations E).
Proof. unfold process_pending_consolidations. hh. apply inv_pc; [|assumption]. intros d Hd. left. eapply In_skipN; eauto. Qed.

(** registry *)
Lemma hn_for {A} cur (l : list A) body : (forall x, holdn cur (body x)) -> holdn cur (sfor l body).
Proof. apply pres_for; auto. Qed.
Lemma exit_slot i s : slot (snd (initiate_exit E f i s)) = slot s.
Proof. apply (frame_slot E f LBlock); [apply evp_exit|discriminate]. Qed.
Lemma mod_slot i g s : slot (snd (mod_validator i g s)) = slot s.
Proof. unfold mod_validator, sbind, rd, idx. destruct (nthN (validators s) i); cbn [md snd]; gs; reflexivity. Qed.
Lemma hn_registry_step cur i : holdn cur (registry_step E f cur i).
Proof.
  unfold registry_step. apply pres_rd_bind; [auto|]. intros s v Hv Hn. apply idx_ok in Hv.
  assert (H1 : now cur (snd (swhen (queue_eligible E f v) (let* e := lift (add E cur 1) in mod_validator i (set_v_activation_eligibility_epoch e)) s))).
  { destruct (queue_eligible E f v) eqn:Hq; [|exact Hn]. cbn [swhen]. unfold sbind, lift. destruct (add E cur 1) as [e| | |] eqn:He; try exact Hn.
    destruct Hn as [Hs Hcur]. split; [|unfold epoch_of in *; rewrite mod_slot; exact Hcur].
    apply inv_mod; [|exact Hs]. intros w Hw. split; [reflexivity|]. assert (w = v) by congruence. subst w. apply queue_eligible_far in Hq.
    intros Hc [L1 L2 L3 L4 L5 L6]. apply (add_checked _ _ _ Hc) in He as [-> He]. rewrite far_is in *. constructor; gs; rewrite ?far_is; try assumption; lia. }
  unfold sbind at 1. destruct (swhen _ _ s) as [[u| | |] s1]; cbn [snd] in H1; try exact H1.
  revert s1 H1. match goal with |- forall s, _ -> now cur (snd (?m s)) => change (holdn cur m) end.
  apply pres_rd_bind; [auto|]. intros t w Hw [Ht Hcur]. apply idx_ok in Hw.
  destruct (is_active_validator w cur) eqn:Hact; [|split; assumption]. destruct (_ <=? _); [|split; assumption]. cbn [andb swhen].
  split; [|unfold epoch_of in *; rewrite exit_slot; exact Hcur]. apply at_exit; [exact Ht|]. intros Hc w' Hw'. assert (w' = w) by congruence. subst w'.
  unfold is_active_validator in Hact. lia.
Qed.
Definition ready (ae : N) (s : BeaconState) (i : N) : Prop :=
  chk E = true -> forall v, nthN (validators s) i = Some v -> v_activation_eligibility_epoch v <= ae /\ ae < FAR_FUTURE_EPOCH + 1 /\ v_exit_epoch v = FAR_FUTURE_EPOCH.
Lemma at_activate ae i s : well_formed s -> ready ae s i -> well_formed (snd (mod_validator i (set_v_activation_epoch ae) s)).
Proof.
  intros Hs Hr. apply inv_mod; [|exact Hs]. intros v Hv. split; [reflexivity|]. intros Hc [L1 L2 L3 L4 L5 L6]. destruct (Hr Hc v Hv) as (R1 & R2 & R3).
  constructor; gs; try assumption; try lia.
Qed.
Lemma activate_ready ae i j s : ready ae s j -> ready ae (snd (mod_validator i (set_v_activation_epoch ae) s)) j.
Proof.
  intros Hr Hc v. destruct (nthN (validators s) i) as [w|] eqn:Hw.
  2: { unfold mod_validator, sbind, rd, idx. rewrite Hw. apply Hr. exact Hc. }
  rewrite (mod_validator_run s i _ w Hw). cbn [snd]. gs. destruct (N.eq_dec i j) as [<-|Hne].
  - rewrite nthN_updN_eq by (eapply nthN_some; eauto). intros H. injection H as <-. gs. apply (Hr Hc w Hw).
  - rewrite nthN_updN_ne by congruence. apply Hr. exact Hc.
Qed.
Lemma at_activate_all ae l : forall s, well_formed s -> (forall i, In i l -> ready ae s i) -> well_formed (snd (sfor l (fun i => mod_validator i (set_v_activation_epoch ae)) s)).
Proof.
  induction l as [|i l IH]; intros s Hs Hr; [exact Hs|]. rewrite sfor_cons. apply at_bind.
  - apply at_activate; [exact Hs|apply Hr; left; reflexivity].
  - intros u t Ht Hit. apply IH; [exact Hit|]. intros j Hj. pose proof (activate_ready ae i j s (Hr j (or_intror Hj))) as H. rewrite Ht in H. exact H.
Qed.
Lemma eligible_ready cur ae s i v : now cur s -> compute_activation_exit_epoch E cur = Ok ae -> nthN (validators s) i = Some v ->
  is_eligible_for_activation s v = true -> ready ae s i.
Proof.
  intros [Hs Hcur] Hae Hv He Hc w Hw. assert (w = v) by congruence. subst w. apply (act_exit _ _ Hc) in Hae as [Ha Hb].
  unfold is_eligible_for_activation in He. destruct (n_past _ _ _ Hs Hc) as (_ & _ & Hp). rewrite Hcur in Hp.
  destruct (n_life _ _ _ Hs Hc v (nthN_In _ _ _ Hv)) as [L1 L2 L3 L4 L5 L6]. lia.
Qed.
Lemma hd_registry : hold (process_registry_updates E f).
Proof.
  unfold process_registry_updates. apply hd_rd_bind. intros s cur Hs Hcur. apply cur_epoch in Hcur.
  apply at_rd; [exact Hs|]. intros n _.
  assert (Hn : now cur s) by (split; [exact Hs|symmetry; exact Hcur]). clear Hs Hcur.
  pose proof (hn_for cur (rangeN n) (registry_step E f cur) (hn_registry_step cur) s Hn) as Hf.
  unfold sbind at 1. destruct (sfor (rangeN n) (registry_step E f cur) s) as [[u| | |] t]; cbn [snd] in Hf; try apply Hf.
  assert (Hother : forall F : BeaconState -> res N, well_formed (snd ((
    let* queue := rd (fun s => Ok (activation_queue s)) in
    let* ae := lift (compute_activation_exit_epoch E cur) in
    let* limit := rd F in
    sfor (firstN limit queue) (fun i => mod_validator i (set_v_activation_epoch ae))) t))).
  { intros F. destruct Hf as [Ht Hcur]. apply at_rd; [exact Ht|]. intros q Hq. apply Ok_inj in Hq. subst q. apply at_lift; [exact Ht|]. intros ae Hae.
    apply at_rd; [exact Ht|]. intros limit _. apply at_activate_all; [exact Ht|]. intros i Hi. apply In_firstn, In_activation_queue in Hi as (w & Hw & He).
    eapply eligible_ready; eauto. split; assumption. }
  assert (Hel : well_formed (snd ((let* ae := lift (compute_activation_exit_epoch E cur) in
    sfor (rangeN n) (fun i =>
      let* v := rd (fun s => idx (validators s) i) in
      let* e := rd (fun s => Ok (is_eligible_for_activation s v)) in
      swhen e (mod_validator i (set_v_activation_epoch ae)))) t))).
  { apply at_lift; [apply Hf|]. intros ae Hae.
    match goal with |- well_formed (snd (sfor ?l ?b t)) => assert (Hx : holdn cur (sfor l b)); [|apply (Hx t Hf)] end.
    apply hn_for. intros i. apply pres_rd_bind; [auto|]. intros u' v Hv Hu. apply idx_ok in Hv. unfold sbind, rd.
    destruct (is_eligible_for_activation u' v) eqn:He; [|exact Hu]. cbn [swhen]. split.
    - apply at_activate; [apply Hu|]. eapply eligible_ready; eauto.
    - destruct Hu as [_ Hu]. unfold epoch_of in *. rewrite mod_slot. exact Hu. }
  destruct f; first [exact Hel|apply Hother].
Qed.

(** sync committees *)
Lemma sync_loop_len n : forall s seed act i acc l, lenN acc <= SYNC_COMMITTEE_SIZE E -> sync_loop E n s seed act i acc = Ok l -> lenN l = SYNC_COMMITTEE_SIZE E.
Proof.
  induction n as [|n IH]; intros s seed act i acc l Ha H; cbn [sync_loop] in H; destruct (N.leb_spec (SYNC_COMMITTEE_SIZE E) (lenN acc)); try discriminate;
    try (injection H as <-; lia).
  rinv H. apply IH in H; [exact H|]. destruct (snd _); [|lia]. rewrite lenN_app, lenN_cons. change (lenN (@nil N)) with 0. lia.
Qed.
Lemma next_committee_valid s c : get_next_sync_committee E s = Ok c -> committee_valid E s c.
Proof.
  intros H. unfold get_next_sync_committee in H. rinv H. subst c. unfold committee_valid. cbn [sc_public_keys].
  match goal with H : get_next_sync_committee_indices E s = Ok _ |- _ => unfold get_next_sync_committee_indices in H; rinv H; apply sync_loop_len in H; [|apply N.le_0_l]; rename H into Hl end.
  match goal with H : rmap _ _ = Ok _ |- _ => apply rmap_ok in H; rename H into Hm end.
  split; [rewrite <- Hl; clear - Hm; induction Hm as [|? ? ? ? ? ? IH]; [reflexivity|rewrite !lenN_cons, IH; reflexivity]|].
  intros pk Hpk. clear - Hm Hpk. induction Hm as [|i k li lk H1 _ IH]; [destruct Hpk|]. destruct Hpk as [->|Hpk]; [|auto].
  rinv H1. subst. match goal with H : nthN _ _ = Some ?v |- _ => exists v; split; [eapply nthN_In; exact H|reflexivity] end.
Qed.
Lemma hd_sync_committees : hold (process_sync_committee_updates E).
Proof.
  unfold process_sync_committee_updates. apply hd_bind; [apply hd_rd|]. intros m. apply hd_when. apply hd_rd_bind. intros s c Hs Hc. cbn [md snd].
  apply next_committee_valid in Hc. destruct Hs as [L [R1 R2 R3 R4] Z S P Q V]. constructor; gs; try assumption.
  - constructor; gs; assumption.
  - intros Hf. destruct (S Hf) as [_ B]. split; assumption.
Qed.
Hint Resolve hd_jf hd_inactivity hd_rewards hd_slashings hd_eth1_reset hd_effective hd_slashings_reset hd_randao_reset hd_historical hd_records
  hd_flags hd_pending_deposits hd_pending_consolidations hd_registry hd_sync_committees hd_block : reach.
Lemma hd_epoch : hold (process_epoch E f).
Proof.
  unfold process_epoch. do 11 (apply hd_bind; [solve [hh]|intros _]). 
  assert (H : hold (process_participation_flag_updates ;; process_sync_committee_updates E)) by hh.
  pose proof hd_records as H0. destruct f; first [exact H|exact H0].
Qed.
Hint Resolve hd_epoch : reach.

(** ** Slots and transitions *)
Lemma hd_slot : hold (process_slot E f).
Proof.
  unfold process_slot. hh.
  match goal with |- context [if ?c then _ else _] => destruct c end; [irr s Hs|exact Hs].
Qed.
Hint Resolve hd_slot : reach.
Lemma hd_advance : hold (advance_slot E f).
Proof.
  unfold advance_slot. do 3 (apply hd_bind; [solve [hh]|intros ?]). apply hd_rd_bind. intros s n Hs Hn. cbn [md snd].
  destruct Hs as [L [R1 R2 R3 R4] Z S P Q V]. constructor; gs; try assumption.
  - constructor; gs; assumption.
  - intros Hc. apply (add_checked _ _ _ Hc) in Hn as [-> _]. destruct (P Hc) as (P1 & P2 & P3). unfold checkpoints_past, epoch_of in *. gs.
    assert (slot s / SLOTS_PER_EPOCH E <= (slot s + 1) / SLOTS_PER_EPOCH E) by (destruct (N.eq_dec (SLOTS_PER_EPOCH E) 0) as [->|H0]; [destruct (slot s + 1), (slot s); cbn; lia|apply N.div_le_mono; [exact H0|lia]]). clear - P1 P2 P3 H. repeat split; eapply N.le_trans; eauto.
Qed.
Hint Resolve hd_advance : reach.
Lemma hd_loop n t : hold (slots_loop E f n t).
Proof. induction n as [|n IH]; cbn [slots_loop]; hh. Qed.
Hint Resolve hd_loop : reach.
Lemma hd_slots t : hold (process_slots E f t).
Proof. unfold process_slots. hh. Qed.
Hint Resolve hd_slots : reach.
Lemma hd_block_in_slot v sb : hold (state_transition_block_in_slot E f v sb).
Proof. unfold state_transition_block_in_slot. hh. Qed.
Hint Resolve hd_block_in_slot : reach.
Lemma hd_transition v sb : hold (state_transition E f v sb).
Proof. unfold state_transition. hh. Qed.
End Leaves.
