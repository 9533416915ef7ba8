(** * Who may change the standing of a validator (proof file; no model definitions) *)
From Verif Require Import Base BaseLemmas Types Ctx Env Helpers HelpersAltair HelpersElectra Block Epoch Transition Upgrade StLemmas
  SpecCommon SpecHelpers SpecElectra SpecOps SpecBlock SpecEpoch SpecFlow SpecAtt SpecQueues SpecFinality SpecSafety SpecEvidence SpecAuthority
  Frame HelperProofs HelperProofs2 OpsProofs SlashProofs BlockProofs FlowProofs PropsEvidence.

(** ** Steps that leave the registry alone *)
Record quiet (s t : BeaconState) : Prop := mkQuiet {
  qt_v : validators t = validators s; qt_fork : fork t = fork s; qt_gvr : genesis_validators_root t = genesis_validators_root s; qt_slot : slot t = slot s }.
Lemma quiet_refl s : quiet s s. Proof. constructor; reflexivity. Qed.
Lemma quiet_trans a b c : quiet a b -> quiet b c -> quiet a c.
Proof. intros [A1 A2 A3 A4] [B1 B2 B3 B4]. constructor; congruence. Qed.
Lemma pres_fold_q {A B} (l : list A) (body : B -> A -> St BeaconState B) b : (forall b x, pres quiet (body b x)) -> pres quiet (sfold body l b).
Proof. intros. apply pres_fold; auto using quiet_refl. exact quiet_trans. Qed.
Lemma quiet_increase (E : Env) i d : pres quiet (increase_balance E i d).
Proof. unfold increase_balance. apply pres_bind; [exact quiet_trans|apply pres_rd; exact quiet_refl|]. intros a. apply pres_md. intros s. constructor; gs; reflexivity. Qed.
Lemma quiet_decrease (E : Env) i d : pres quiet (decrease_balance E i d).
Proof. unfold decrease_balance. apply pres_bind; [exact quiet_trans|apply pres_rd; exact quiet_refl|]. intros a. apply pres_md. intros s. constructor; gs; reflexivity. Qed.
Ltac qt1 :=
  match goal with
  | |- forall _, _ => intro
  | |- pres quiet (sbind _ _) => apply pres_bind; [exact quiet_trans| |]
  | |- pres quiet (rd _) => apply pres_rd; exact quiet_refl
  | |- pres quiet (lift _) => apply pres_lift; exact quiet_refl
  | |- pres quiet (sret _) => apply pres_ret; exact quiet_refl
  | |- pres quiet (swhen _ _) => apply pres_when; [exact quiet_refl|]
  | |- pres quiet (sfor _ _) => apply pres_for; [exact quiet_refl|exact quiet_trans|]
  | |- pres quiet (sfold _ _ _) => apply pres_fold_q
  | |- pres quiet (increase_balance _ _ _) => apply quiet_increase
  | |- pres quiet (decrease_balance _ _ _) => apply quiet_decrease
  | |- pres quiet (let _ := _ in _) => cbv zeta
  | |- pres quiet (match ?x with _ => _ end) => destruct x
  | |- pres quiet (md _) => apply pres_md; intro; first [constructor; gs; reflexivity | apply quiet_refl]
  end.
Ltac qt := repeat qt1.

(** ** An invariant of everything that happens to the validators *)
Section Inv.
Variables (s0 : BeaconState) (link : N -> Validator -> Validator -> Prop) (fresh : Validator -> Prop).
Record inv (u : BeaconState) : Prop := mkInv {
  iv_fork : fork u = fork s0; iv_gvr : genesis_validators_root u = genesis_validators_root s0; iv_slot : slot u = slot s0;
  iv_old : forall i v, nthN (validators s0) i = Some v -> exists v', nthN (validators u) i = Some v' /\ link i v v';
  iv_new : forall i v', nthN (validators u) i = Some v' -> lenN (validators s0) <= i -> fresh v' }.
Definition holdI {A} (m : St BeaconState A) : Prop := forall u, inv u -> inv (snd (m u)).

Lemma hi_quiet {A} (m : St BeaconState A) : pres quiet m -> holdI m.
Proof. intros H u [I1 I2 I3 I4 I5]. destruct (H u) as [Q1 Q2 Q3 Q4]. constructor; try congruence; rewrite Q1; assumption. Qed.
Lemma hi_bind {A B} (m : St BeaconState A) (k : A -> St BeaconState B) : holdI m -> (forall a, holdI (k a)) -> holdI (sbind m k).
Proof.
  intros H1 H2 u Hu. specialize (H1 u Hu). unfold sbind. destruct (m u) as [[a| | |] t]; cbn [snd] in *; auto. apply H2. exact H1.
Qed.
Lemma hi_rd {A B} (g : BeaconState -> res A) (k : A -> St BeaconState B) :
  (forall u a, inv u -> g u = Ok a -> holdI (k a)) -> holdI (sbind (rd g) k).
Proof. intros H u Hu. unfold sbind, rd. destruct (g u) as [a| | |] eqn:Hg; cbn [snd]; auto. apply (H u a Hu Hg). exact Hu. Qed.
Lemma hi_lift {A B} (r : res A) (k : A -> St BeaconState B) : (forall a, r = Ok a -> holdI (k a)) -> holdI (sbind (lift r) k).
Proof. intros H u Hu. unfold sbind, lift. destruct r as [a| | |] eqn:Hg; cbn [snd]; auto. apply (H a); auto. Qed.
Lemma hi_for {A} (l : list A) (k : A -> St BeaconState unit) : (forall x, In x l -> holdI (k x)) -> holdI (sfor l k).
Proof.
  induction l as [|x l IH]; intros H; cbn [sfor]; [apply hi_quiet; qt|]. apply hi_bind; [apply H; left; reflexivity|]. intros _. apply IH. intros y Hy. apply H. right. exact Hy.
Qed.
Lemma hi_fold {A B} (k : B -> A -> St BeaconState B) (l : list A) : (forall b x, In x l -> holdI (k b x)) -> forall b, holdI (sfold k l b).
Proof.
  induction l as [|x l IH]; intros H b; cbn [sfold]; [apply hi_quiet; qt|]. apply hi_bind; [apply H; left; reflexivity|]. intros b'. apply IH. intros c y Hy. apply H. right. exact Hy.
Qed.
Lemma hi_when b m : (b = true -> holdI m) -> holdI (swhen b m).
Proof. intros H. destruct b; [apply H; reflexivity|]. apply hi_quiet. cbn [swhen]. qt. Qed.
Lemma hi_mod i g : (forall v v', nthN (validators s0) i = Some v -> link i v v' -> link i v (g v')) -> (lenN (validators s0) <= i -> forall v', fresh v' -> fresh (g v')) ->
  holdI (mod_validator i g).
Proof.
  intros H1 H2 u [I1 I2 I3 I4 I5]. unfold mod_validator, sbind, rd, md. destruct (idx (validators u) i) as [w| | |] eqn:Hw; cbn [snd]; [|constructor; assumption..].
  apply idx_ok in Hw. pose proof (nthN_some _ _ _ Hw) as Hl. constructor; gs; try assumption.
  - intros j v Hv. destruct (I4 j v Hv) as (v' & A1 & A2). destruct (N.eq_dec j i) as [->|Hn].
    + exists (g w). rewrite nthN_updN_eq by exact Hl. split; [reflexivity|]. apply H1; [exact Hv|]. congruence.
    + exists v'. rewrite nthN_updN_ne by congruence. auto.
  - intros j v' Hv Hj. destruct (N.eq_dec j i) as [->|Hn].
    + rewrite nthN_updN_eq in Hv by exact Hl. injection Hv as <-. apply H2; [exact Hj|]. eapply I5; eauto.
    + rewrite nthN_updN_ne in Hv by congruence. eapply I5; eauto.
Qed.
Lemma hi_append (g : BeaconState -> BeaconState) v : (forall u, validators (g u) = validators u ++ [v] /\ fork (g u) = fork u /\ genesis_validators_root (g u) = genesis_validators_root u
    /\ slot (g u) = slot u) -> fresh v -> holdI (md g).
Proof.
  intros H Hf u [I1 I2 I3 I4 I5]. destruct (H u) as (A1 & A2 & A3 & A4). cbn [md snd]. constructor; try congruence; rewrite A1.
  - intros i w Hw. destruct (I4 i w Hw) as (w' & B1 & B2). exists w'. split; [|exact B2]. rewrite nthN_app_l; [exact B1|]. apply nthN_some in B1. exact B1.
  - intros i w Hw Hi. destruct (N.lt_ge_cases i (lenN (validators u))) as [Hl|Hl].
    + rewrite nthN_app_l in Hw by exact Hl. eapply I5; eauto.
    + rewrite nthN_app_r in Hw by exact Hl. apply nthN_In in Hw. destruct Hw as [<-|[]]. exact Hf.
Qed.
(** what is known of a validator read in passing *)
Lemma inv_at u i v' : inv u -> nthN (validators u) i = Some v' ->
  (exists v, nthN (validators s0) i = Some v /\ link i v v') \/ (lenN (validators s0) <= i /\ fresh v').
Proof.
  intros [I1 I2 I3 I4 I5] H. destruct (N.lt_ge_cases i (lenN (validators s0))) as [Hl|Hl]; [left|right; split; [exact Hl|eapply I5; eauto]].
  destruct (nthN_lt _ _ Hl) as [v Hv]. exists v. split; [exact Hv|]. destruct (I4 i v Hv) as (w & A1 & A2). congruence.
Qed.

(** exits *)
Hypothesis keeps_withdrawable : forall i v v' w, link i v v' -> link i v (set_v_withdrawable_epoch w v').
Hypothesis fresh_withdrawable : forall v' w, fresh v' -> fresh (set_v_withdrawable_epoch w v').
Definition may_exit (i : N) : Prop := i < lenN (validators s0) /\ forall v v' q, nthN (validators s0) i = Some v -> link i v v' -> link i v (set_v_exit_epoch q v').
Lemma hi_set_exit i q : may_exit i -> holdI (mod_validator i (set_v_exit_epoch q)).
Proof. intros [H1 H2]. apply hi_mod; [intros; apply H2; assumption|]. intros Hl. exfalso. lia. Qed.
Lemma hi_set_withdrawable i (w : Validator -> N) : holdI (mod_validator i (fun v => set_v_withdrawable_epoch (w v) v)).
Proof. apply hi_mod; [intros; apply keeps_withdrawable; assumption|]. intros _ v' H. apply fresh_withdrawable. exact H. Qed.
Lemma hi_exit (E : Env) f i : may_exit i -> holdI (initiate_exit E f i).
Proof.
  intros H.
  assert (W : forall w, holdI (mod_validator i (set_v_withdrawable_epoch w))) by (intros w; exact (hi_set_withdrawable i (fun _ => w))).
  assert (A : holdI (initiate_validator_exit E i)).
  { unfold initiate_validator_exit. apply hi_bind; [apply hi_quiet; qt|]. intros v. destruct (negb _); [apply hi_quiet; qt|].
    apply hi_bind; [apply hi_quiet; qt|]. intros q. apply hi_bind; [apply hi_set_exit; exact H|]. intros _. apply hi_bind; [apply hi_quiet; qt|]. intros w. apply W. }
  destruct f; cbn [initiate_exit]; try exact A. unfold initiate_validator_exit_electra. apply hi_bind; [apply hi_quiet; qt|]. intros v. destruct (negb _); [apply hi_quiet; qt|].
  apply hi_bind; [apply hi_quiet; unfold compute_exit_epoch_and_update_churn; qt|]. intros q. apply hi_bind; [apply hi_set_exit; exact H|]. intros _.
  apply hi_bind; [apply hi_quiet; qt|]. intros w. apply W.
Qed.
Lemma hi_slash (E : Env) f i : may_exit i -> (forall v v', nthN (validators s0) i = Some v -> link i v v' -> link i v (set_v_slashed true v')) -> holdI (slash_validator E f i None).
Proof.
  intros H1 H2. unfold slash_validator. apply hi_bind; [apply hi_quiet; qt|]. intros e. apply hi_bind; [apply hi_exit; exact H1|]. intros _.
  apply hi_bind; [apply hi_mod; [exact H2|intros Hl; exfalso; destruct H1; lia]|]. intros _. apply hi_bind; [apply hi_quiet; qt|]. intros lim.
  apply hi_bind; [apply (hi_set_withdrawable i (fun v => N.max (v_withdrawable_epoch v) lim))|]. intros _. apply hi_quiet. qt.
Qed.
End Inv.
Lemma inv_weaken s0 (l l' : N -> Validator -> Validator -> Prop) (p p' : Validator -> Prop) u :
  (forall i v v', nthN (validators s0) i = Some v -> l i v v' -> l' i v v') -> (forall v, p v -> p' v) -> inv s0 l p u -> inv s0 l' p' u.
Proof.
  intros H1 H2 [I1 I2 I3 I4 I5]. constructor; try assumption.
  - intros i v Hv. destruct (I4 i v Hv) as (v' & A1 & A2). eauto.
  - intros i v' Hv Hi. eauto.
Qed.
Lemma inv_start (s0 : BeaconState) (l : N -> Validator -> Validator -> Prop) (p : Validator -> Prop) : (forall i v, nthN (validators s0) i = Some v -> l i v v) -> inv s0 l p s0.
Proof.
  intros H. constructor; try reflexivity.
  - intros i v Hv. exists v. split; [exact Hv|apply H; exact Hv].
  - intros i v' Hv Hi. apply nthN_some in Hv. lia.
Qed.

(** ** Blocks *)
Section Blk.
Variables (E : Env) (f : Fork) (s0 : BeaconState) (b : BeaconBlock).
Hypothesis Hc : ctx_sane E.
Hypothesis Hsl : slot s0 < 2 ^ 64 - 1.
Notation body := (bk_body b).

Record blink (i : N) (v v' : Validator) : Prop := mkBlink {
  bl_pk : v_public_key v' = v_public_key v; bl_act : v_activation_epoch v' = v_activation_epoch v;
  bl_slashed : v_slashed v' = v_slashed v \/ convicted E s0 b i;
  bl_exit : v_exit_epoch v' = v_exit_epoch v \/ exit_due E f s0 b i v;
  bl_cred : credentials_due E f s0 b i v (v_withdrawal_credentials v') }.
Definition bfresh (v : Validator) : Prop := v_slashed v = false /\ v_activation_epoch v = FAR_FUTURE_EPOCH /\ v_exit_epoch v = FAR_FUTURE_EPOCH.
Notation inv1 := (inv s0 blink (fun _ => False)).
Notation hold1 := (holdI s0 blink (fun _ => False)).
Notation inv2 := (inv s0 blink bfresh).
Notation hold2 := (holdI s0 blink bfresh).

Lemma due_refl i v : credentials_due E f s0 b i v (v_withdrawal_credentials v).
Proof. exists (v_withdrawal_credentials v). auto. Qed.
Lemma blink_withdrawable i v v' w : blink i v v' -> blink i v (set_v_withdrawable_epoch w v').
Proof. intros [L1 L2 L3 L4 L5]. constructor; gs; assumption. Qed.
Lemma blink_exit i v v' q : exit_due E f s0 b i v -> blink i v v' -> blink i v (set_v_exit_epoch q v').
Proof. intros H [L1 L2 L3 L4 L5]. constructor; gs; auto. Qed.
Lemma blink_slash i v v' : convicted E s0 b i -> blink i v v' -> blink i v (set_v_slashed true v').
Proof. intros H [L1 L2 L3 L4 L5]. constructor; gs; auto. Qed.
Lemma fresh_withdrawable v w : bfresh v -> bfresh (set_v_withdrawable_epoch w v).
Proof. intros (H1 & H2 & H3). repeat split; gs; assumption. Qed.
Lemma not_active u v : inv2 u -> bfresh v -> is_active_validator v (epoch_of E u) = true -> False.
Proof.
  intros I (_ & H & _) Ha. apply active_spec in Ha. rewrite H in Ha. change FAR_FUTURE_EPOCH with (2 ^ 64 - 1) in Ha. unfold epoch_of in Ha. rewrite (iv_slot _ _ _ _ I) in Ha.
  pose proof (N.div_le_upper_bound (slot s0) (SLOTS_PER_EPOCH E) (slot s0)) as HD. destruct Hc as (Hspe & _).
  assert (slot s0 / SLOTS_PER_EPOCH E <= slot s0); [|lia]. apply HD; [lia|]. clear - Hspe. nia.
Qed.

Lemma convict_exit i : i < lenN (validators s0) -> convicted E s0 b i -> may_exit s0 blink i.
Proof. intros Hi H. split; [exact Hi|]. intros v v' q Hv L. apply blink_exit; [left; exact H|exact L]. Qed.
Lemma hold1_slash i : i < lenN (validators s0) -> convicted E s0 b i -> hold1 (slash_validator E f i None).
Proof.
  intros Hi H. apply hi_slash; [intros; apply blink_withdrawable; assumption|auto|apply convict_exit; assumption|]. intros v v' _ L. apply blink_slash; assumption.
Qed.
Lemma version_same u e : inv1 u -> version_at u e = version_at s0 e.
Proof. intros I. unfold version_at. rewrite (iv_fork _ _ _ _ I). reflexivity. Qed.
Lemma signed_same u ty e o pk sg : inv1 u -> signed_by E u ty e o pk sg -> signed_by E s0 ty e o pk sg.
Proof. intros I (d & r & A1 & A2 & A3). exists d, r. rewrite (version_same u e I), (iv_gvr _ _ _ _ I) in A1. auto. Qed.
Lemma hold1_proposer op : In op (bb_proposer_slashings body) -> hold1 (process_proposer_slashing E f op).
Proof.
  intros Hop. unfold process_proposer_slashing. apply hi_rd. intros u i I Hk. apply proposer_slashing_checks_iff in Hk as [Hk ->]; [|exact Hc].
  destruct Hk as (B1 & B2 & B3 & v & B4 & B5 & B6 & B7). destruct (inv_at _ _ _ _ _ _ I B4) as [(w & A1 & A2)|[_ []]].
  apply hold1_slash; [eapply nthN_some; eauto|]. left. exists op, w. split; [exact Hop|]. split; [exact A1|]. cbv zeta. split; [reflexivity|]. split; [symmetry; exact B2|]. split; [exact B1|].
  split; [exact B3|]. rewrite (bl_pk _ _ _ A2) in B6, B7. split; eapply signed_same; eauto.
Qed.
Lemma valid_same u ia : inv1 u -> indexed_valid E u ia -> indexed_valid E s0 ia.
Proof.
  intros I H. apply (C103_evidence_travels E u s0 ia H); [|symmetry; exact (iv_gvr _ _ _ _ I)|symmetry; apply version_same; exact I].
  intros i v _ Hv. destruct (inv_at _ _ _ _ _ _ I Hv) as [(w & A1 & A2)|[_ []]]. exists w. split; [exact A1|]. symmetry. exact (bl_pk _ _ _ A2).
Qed.
Lemma hold1_attester op : In op (bb_attester_slashings body) -> hold1 (process_attester_slashing E f op).
Proof.
  intros Hop. unfold process_attester_slashing. apply hi_rd. intros u l I Hk. apply attester_checks_iff in Hk as [(B1 & B2 & B3) ->].
  apply hi_rd. intros u2 cur I2 _. apply hi_bind; [|intros ?; apply hi_quiet; qt]. apply hi_fold. intros x i Hi. apply In_sorted_intersection in Hi as [Hi1 Hi2].
  apply hi_rd. intros u3 v I3 Hv. apply idx_ok in Hv. destruct (inv_at _ _ _ _ _ _ I3 Hv) as [(w & A1 & A2)|[_ []]].
  destruct (is_slashable_validator v cur); [|apply hi_quiet; qt]. apply hi_bind; [|intros ?; apply hi_quiet; qt].
  apply hold1_slash; [eapply nthN_some; eauto|]. right. exists op. repeat (split; [assumption|]). split; apply (valid_same u); assumption.
Qed.

(** deposits *)
Lemma fresh_new pk wc amount v : get_validator_from_deposit E pk wc amount = Ok v -> bfresh v.
Proof. intros H. unfold get_validator_from_deposit in H. rinv H. subst v. repeat split. Qed.
Lemma hold2_add g pk wc amount : hold2 (add_validator_to_registry E g pk wc amount).
Proof.
  assert (A : hold2 (let* v := lift (get_validator_from_deposit E pk wc amount) in
    md (fun s => set_balances (balances s ++ [amount]) (set_validators (validators s ++ [v]) s)) ;;
    swhen (fork_le Altair g)
      (md (fun s => set_inactivity_scores (inactivity_scores s ++ [0])
             (set_current_epoch_participation (current_epoch_participation s ++ [0])
             (set_previous_epoch_participation (previous_epoch_participation s ++ [0]) s)))))).
  { apply hi_lift. intros v Hv. apply hi_bind; [|intros _; apply hi_quiet; qt]. apply (hi_append _ _ _ _ v); [intros u; gs; auto|eapply fresh_new; eauto]. }
  destruct g; cbn [add_validator_to_registry]; try exact A. apply (hi_append _ _ _ _ (get_validator_from_deposit_electra pk wc)); [intros u; gs; auto|repeat split].
Qed.
Lemma eth1_first v : has_eth1_withdrawal_credential v = true -> nthN (v_withdrawal_credentials v) 0 = Some 1.
Proof. unfold has_eth1_withdrawal_credential. intros H. apply N.eqb_eq in H. apply cred_prefix_nth in H; [exact H|discriminate]. Qed.
Lemma hold2_switch i : (forall v, nthN (validators s0) i = Some v -> asks_compounding E f b v) -> hold2 (switch_to_compounding_validator E i).
Proof.
  intros H u I. unfold switch_to_compounding_validator, sbind at 1, rd at 1. destruct (idx (validators u) i) as [v1| | |] eqn:Hv; cbn [snd]; try exact I.
  destruct (has_eth1_withdrawal_credential v1) eqn:He; [|exact I]. apply idx_ok in Hv. apply eth1_first in He.
  set (g := fun v => set_v_withdrawal_credentials (COMPOUNDING_WITHDRAWAL_PREFIX :: skipn 1 (v_withdrawal_credentials v)) v).
  unfold sbind at 1. rewrite (mod_validator_run u i g v1 Hv). cbn beta iota.
  assert (I' : inv2 (set_validators (updN (validators u) i (g v1)) u)).
  { pose proof (nthN_some _ _ _ Hv) as Hl. destruct I as [I1 I2 I3 I4 I5]. constructor; gs; try assumption.
    - intros j v Hj. destruct (I4 j v Hj) as (v' & A1 & A2). destruct (N.eq_dec j i) as [->|Hn]; [|exists v'; rewrite nthN_updN_ne by congruence; auto].
      exists (g v1). rewrite nthN_updN_eq by exact Hl. split; [reflexivity|]. rewrite Hv in A1. injection A1 as <-. destruct A2 as [L1 L2 L3 L4 (base & B1 & B2)]. unfold g.
      constructor; gs; try assumption. exists base. split; [exact B1|]. right. destruct B2 as [B2|(_ & _ & B2)].
      + rewrite <- B2. split; [apply H; exact Hj|]. split; [exact He|reflexivity].
      + rewrite B2 in He. rewrite nthN_cons in He. discriminate He.
    - intros j v' Hj Hi. destruct (N.eq_dec j i) as [->|Hn]; [|rewrite nthN_updN_ne in Hj by congruence; eapply I5; eauto].
      rewrite nthN_updN_eq in Hj by exact Hl. injection Hj as <-. destruct (I5 i v1 Hv Hi) as (F1 & F2 & F3). unfold g. repeat split; gs; assumption. }
  clearbody g. revert I'. generalize (set_validators (updN (validators u) i (g v1)) u). intros u' I'. revert u' I'. change (hold2 (queue_excess_active_balance E i)). apply hi_quiet.
  unfold queue_excess_active_balance. qt.
Qed.

Lemma deposit_sig_ok pk wc amount sg : is_valid_deposit_signature E pk wc amount sg = Ok tt -> deposit_signed E pk wc amount sg.
Proof.
  intros H. unfold is_valid_deposit_signature in H. rinv H. apply verify_signed_data_ok in H as (root & R1 & R2). exists x, root. split; [|auto].
  apply (compute_domain_ok E DDeposit (GENESIS_FORK_VERSION E) zero32). exact H0.
Qed.
Lemma hold2_apply_electra pk wc amount sg : f = Electra ->
  ((exists d, In d (bb_deposits body) /\ dd_public_key (dep_data d) = pk /\ dd_withdrawal_credentials (dep_data d) = wc /\ dd_amount (dep_data d) = amount /\ dd_signature (dep_data d) = sg)
   \/ (exists r, In r (ep_deposit_receipts (bb_execution_payload body)) /\ dr_public_key r = pk /\ dr_withdrawal_credentials r = wc /\ dr_amount r = amount /\ dr_signature r = sg)) ->
  hold2 (apply_deposit_electra E pk wc amount sg).
Proof.
  intros Hf Hd. unfold apply_deposit_electra. apply hi_rd. intros u o I Ho. apply Ok_inj in Ho. destruct o as [i|].
  - apply hi_bind; [apply hi_quiet; qt|]. intros _. apply hi_lift. intros [] Hs. apply deposit_sig_ok in Hs. apply hi_rd. intros u2 v I2 Hv. apply hi_when. intros Hb.
    apply andb_true_iff in Hb as [Hb _]. apply hold2_switch. intros v0 Hv0. apply holder_position in Ho. destruct Ho as [Ho _].
    destruct (iv_old _ _ _ _ I i v0 Hv0) as (w & W1 & W2). assert (Hpk : pk = v_public_key v0).
    { rewrite <- (bl_pk _ _ _ W2). unfold key_of in Ho. rewrite W1 in Ho. cbn in Ho. congruence. }
    split; [exact Hf|]. exists wc, amount, sg. rewrite <- Hpk. split; [|split; [exact Hs|exact Hd]].
    destruct wc as [|x wc]; [discriminate Hb|]. cbn in Hb. apply N.eqb_eq in Hb. rewrite Hb. reflexivity.
  - apply hi_bind; [apply hi_quiet; qt|]. intros _. apply hold2_add.
Qed.
Lemma hold2_apply0 g pk wc amount sg : hold2 (apply_deposit_phase0 E g pk wc amount sg).
Proof.
  unfold apply_deposit_phase0. apply hi_bind; [apply hi_quiet; qt|]. intros [i|]; [apply hi_quiet; qt|]. apply hi_bind; [apply hi_quiet; qt|]. intros dom.
  apply hi_bind; [apply hi_quiet; qt|]. intros bad. destruct bad; [apply hi_quiet; qt|apply hold2_add].
Qed.
Lemma fork_is_electra g : {g = Electra} + {g <> Electra}. Proof. destruct g; auto; right; discriminate. Qed.
Lemma hold2_deposit d : In d (bb_deposits body) -> hold2 (process_deposit E f d).
Proof.
  intros Hd. unfold process_deposit. apply hi_bind; [apply hi_quiet; qt|]. intros _. apply hi_bind; [apply hi_quiet; qt|]. intros i. apply hi_bind; [apply hi_quiet; qt|]. intros _. cbv zeta.
  unfold apply_deposit. destruct (fork_is_electra f) as [He|He].
  - rewrite He. apply hold2_apply_electra; [exact He|]. left. exists d. auto.
  - pose proof (hold2_apply0 f) as A. destruct f; try apply A. congruence.
Qed.

(** exits *)
Lemma hold2_exit i g : i < lenN (validators s0) -> (forall v, nthN (validators s0) i = Some v -> exit_due E f s0 b i v) -> hold2 (initiate_exit E g i).
Proof.
  intros Hi H. apply hi_exit; [intros; apply blink_withdrawable; assumption|apply fresh_withdrawable|]. split; [exact Hi|]. intros v v' q Hv L. apply blink_exit; [apply H; exact Hv|exact L].
Qed.
Lemma hold2_voluntary op : In op (bb_voluntary_exits body) -> hold2 (process_voluntary_exit E f op).
Proof.
  intros Hop. unfold process_voluntary_exit. apply hi_rd. intros u i I H. unfold voluntary_exit_checks in H.
  apply rbind_ok_inv in H as (v & Hv & H). apply getN_ok in Hv. apply rbind_ok_inv in H as (cur & Hcur & H). rewrite (current_epoch_ok E Hc) in Hcur. apply Ok_inj in Hcur. subst cur.
  apply rbind_ok_inv in H as (u1 & Ha & H). apply require_ok in Ha. do 5 apply rbind_ok_inv in H as (? & _ & H).
  apply rbind_ok_inv in H as (d & Hd & H). apply rbind_ok_inv in H as (u6 & Hs & H). destruct u6. apply map_err_ok in Hs. apply verify_signed_data_ok in Hs as (root & Hs1 & Hs2). apply Ok_inj in H. subst i.
  destruct (inv_at _ _ _ _ _ _ I Hv) as [(w & A1 & A2)|[_ Hf]]; [|destruct (not_active u v I Hf Ha)].
  apply hold2_exit; [eapply nthN_some; eauto|]. intros w' Hw'. rewrite A1 in Hw'. injection Hw' as <-. right. left. exists op. split; [exact Hop|]. split; [reflexivity|].
  exists d, root. split; [|split; [exact Hs1|rewrite <- (bl_pk _ _ _ A2); exact Hs2]]. rewrite (iv_gvr _ _ _ _ I) in Hd.
  assert (Hg : forall e, get_domain E u DVoluntaryExit (Some e) = Ok d -> is_domain E [4; 0; 0; 0] (version_at s0 e) (genesis_validators_root s0) d).
  { intros e X. apply get_domain_some in X. unfold version_at in X. rewrite (iv_gvr _ _ _ _ I), (iv_fork _ _ _ _ I) in X. exact X. }
  destruct f; cbn [fork_le fork_num exit_domain_version] in *; first [apply Hg; exact Hd|apply (compute_domain_ok E DVoluntaryExit); exact Hd].
Qed.
Lemma hold2_bls op : fork_le Capella f = true -> In op (bb_bls_to_execution_changes body) -> hold2 (process_bls_to_execution_change E op).
Proof.
  intros Hf Hop u I. unfold process_bls_to_execution_change, sbind, rd. destruct (bls_change_checks E op u) as [i| | |] eqn:Hk; cbn [snd]; try exact I.
  apply bls_checks_iff in Hk as [(v1 & A1 & A2 & A3 & d & root & A4 & A5 & A6) ->]. set (i := bc_validator_index (sbc_message op)) in *.
  rewrite (mod_validator_run u i _ v1 A1). cbn [snd]. pose proof (nthN_some _ _ _ A1) as Hl. set (g := set_v_withdrawal_credentials _ v1).
  rewrite (iv_gvr _ _ _ _ I) in A4. destruct I as [I1 I2 I3 I4 I5]. constructor; gs; try assumption.
  - intros j v Hj. destruct (I4 j v Hj) as (v' & B1 & B2). destruct (N.eq_dec j i) as [->|Hn]; [|exists v'; rewrite nthN_updN_ne by congruence; auto].
    exists g. rewrite nthN_updN_eq by exact Hl. split; [reflexivity|]. rewrite A1 in B1. injection B1 as <-. destruct B2 as [L1 L2 L3 L4 (base & C1 & C2)].
    assert (Hv : v_withdrawal_credentials v1 = v_withdrawal_credentials v).
    { destruct C2 as [C2|(_ & _ & C2)]; [|rewrite C2, nthN_cons in A2; discriminate A2]. destruct C1 as [C1|(op' & _ & _ & _ & _ & _ & _ & C1)]; [congruence|].
      rewrite C2, C1 in A2. discriminate A2. }
    subst g. constructor; gs; try assumption. exists (address_credentials (bc_to_execution_address (sbc_message op))). split; [|left; reflexivity]. right.
    exists op. rewrite <- Hv. repeat (split; [assumption || reflexivity|]). split; [exists d, root; auto|reflexivity].
  - intros j v' Hj Hi. destruct (N.eq_dec j i) as [->|Hn]; [|rewrite nthN_updN_ne in Hj by congruence; eapply I5; eauto].
    rewrite nthN_updN_eq in Hj by exact Hl. injection Hj as <-. destruct (I5 i v1 A1 Hi) as (F1 & F2 & F3). subst g. repeat split; gs; assumption.
Qed.
Lemma hold2_request r : f = Electra -> In r (ep_withdrawal_requests (bb_execution_payload body)) -> hold2 (process_execution_layer_withdrawal_request E r).
Proof.
  intros Hf Hr. unfold process_execution_layer_withdrawal_request. apply hi_rd. intros u a I H. destruct a as [|i|i am]; [apply hi_quiet; qt| |apply hi_quiet; unfold compute_exit_epoch_and_update_churn; qt].
  unfold withdrawal_request_action in H. cbv zeta in H. destruct (_ && _) in H; [discriminate H|].
  destruct (position_pk (elw_validator_public_key r) (validators u) 0) as [j|] eqn:Hp; [|discriminate H]. apply holder_position in Hp. destruct Hp as [Hp _].
  apply rbind_ok_inv in H as (v & Hv & H). apply idx_ok in Hv. destruct (negb _) eqn:Hcr in H; [discriminate H|]. apply negb_false_iff, andb_true_iff in Hcr as [Hx Had]. apply bytes_eqb_true in Had.
  apply rbind_ok_inv in H as (cur & Hcur & H). rewrite (current_epoch_ok E Hc) in Hcur. apply Ok_inj in Hcur. subst cur. destruct (negb _) eqn:Ha in H; [discriminate H|]. apply negb_false_iff in Ha.
  destruct (negb _) in H; [discriminate H|]. apply rbind_ok_inv in H as (mt & _ & H). destruct (_ <? _) in H; [discriminate H|]. apply rbind_ok_inv in H as (pe & _ & H).
  destruct (elw_amount r =? FULL_EXIT_REQUEST_AMOUNT) eqn:Hfull.
  2:{ apply rbind_ok_inv in H as (ba & _ & H). apply rbind_ok_inv in H as (fl & _ & H). destruct (_ && _ && _) in H; [|discriminate H].
      apply rbind_ok_inv in H as (x & _ & H). apply rbind_ok_inv in H as (y & _ & H). discriminate H. }
  destruct (pe =? 0) in H; [|discriminate H]. injection H as ->. apply N.eqb_eq in Hfull.
  destruct (inv_at _ _ _ _ _ _ I Hv) as [(w & A1 & A2)|[_ Hfr]]; [|destruct (not_active u v I Hfr Ha)].
  apply (hold2_exit i Electra); [eapply nthN_some; eauto|]. intros w' Hw'. rewrite A1 in Hw'. injection Hw' as <-. right. right. left. split; [exact Hf|].
  exists r, (v_withdrawal_credentials v). split; [exact Hr|]. split; [rewrite <- (bl_pk _ _ _ A2); unfold key_of in Hp; rewrite Hv in Hp; cbn in Hp; congruence|]. split; [exact Hfull|].
  split; [exact (bl_cred _ _ _ A2)|]. split; [|exact Had]. rewrite execution_kind in Hx. unfold kind_is in Hx. destruct (nthN (v_withdrawal_credentials v) 0) as [k|]; [|discriminate Hx].
  apply orb_true_iff in Hx. destruct Hx as [Hx|Hx]; apply N.eqb_eq in Hx; subst k; auto.
Qed.
Lemma hold2_consolidation op : f = Electra -> In op (bb_consolidations body) -> hold2 (process_consolidation E op).
Proof.
  intros Hf Hop. unfold process_consolidation. cbv zeta. apply hi_rd. intros u [src tgt] I H. unfold consolidation_checks in H. cbv zeta in H. rinv H. injection H as -> ->.
  rewrite (current_epoch_ok E Hc) in *. repeat match goal with K : Ok _ = Ok _ |- _ => apply Ok_inj in K; subst end.
  match goal with K : negb (_ =? _) = true |- _ => apply negb_true_iff, N.eqb_neq in K; rename K into Hne end.
  match goal with K : nthN (validators u) (cn_source_index _) = Some _ |- _ => rename K into Hs end. match goal with K : nthN (validators u) (cn_target_index _) = Some _ |- _ => rename K into Ht end.
  destruct (inv_at _ _ _ _ _ _ I Hs) as [(ws & S1 & S2)|[_ Hfr]]; [|match goal with K : is_active_validator src _ = true |- _ => destruct (not_active u src I Hfr K) end].
  destruct (inv_at _ _ _ _ _ _ I Ht) as [(wt & T1 & T2)|[_ Hfr]]; [|match goal with K : is_active_validator tgt _ = true |- _ => destruct (not_active u tgt I Hfr K) end].
  assert (Hdue : exit_due E f s0 b (cn_source_index (scn_message op)) ws).
  { right. right. right. exists (cn_target_index (scn_message op)). split; [exact Hf|]. exists op, ws, wt. split; [exact Hop|]. split; [reflexivity|]. split; [reflexivity|]. split; [exact Hne|].
    split; [exact S1|]. split; [exact T1|].
    match goal with K : compute_domain _ _ _ _ = Ok ?d, L : compute_signing_root _ _ _ = Ok ?r, M : fast_aggregate_verify_ok _ _ _ _ = true |- _ => exists d, r; rename K into Hd, L into Hr, M into Hm end.
    rewrite (iv_gvr _ _ _ _ I) in Hd. split; [apply (compute_domain_ok E DConsolidation (GENESIS_FORK_VERSION E)); exact Hd|]. split; [apply signing_root_ok; exact Hr|].
    rewrite <- (bl_pk _ _ _ S2), <- (bl_pk _ _ _ T2). exact Hm. }
  cbn [fst]. apply hi_bind; [apply hi_quiet; unfold compute_consolidation_epoch_and_update_churn; qt|]. intros q.
  apply hi_bind. { apply hi_set_exit; [intros; apply blink_withdrawable; assumption|apply fresh_withdrawable|]. split; [eapply nthN_some; eauto|]. intros v v' q' Hv L. rewrite S1 in Hv. injection Hv as <-. apply blink_exit; assumption. }
  intros _. apply hi_bind; [apply hi_quiet; qt|]. intros w. apply hi_bind; [|intros _; apply hi_quiet; qt].
  apply (hi_set_withdrawable s0 blink bfresh) with (w := fun _ => w); [intros; apply blink_withdrawable; assumption|apply fresh_withdrawable].
Qed.

Lemma quiet_attestation a : pres quiet (process_attestation E f a).
Proof.
  assert (A : pres quiet (process_attestation_altair E f a)).
  { unfold process_attestation_altair, attestation_flag_step, set_participation. qt. apply pres_md. intros t. destruct b0; constructor; gs; reflexivity. }
  assert (B : pres quiet (process_attestation_phase0 E a)) by (unfold process_attestation_phase0; qt).
  unfold process_attestation. destruct f; assumption.
Qed.
Lemma blk_operations u : inv1 u -> inv2 (snd (process_operations E f body u)).
Proof.
  intros I. unfold process_operations.
  assert (W : forall t, inv1 t -> inv2 t) by (intros t; apply inv_weaken; [auto|intros ? []]).
  assert (G : forall (A B : Type) (m : St BeaconState A) (k : A -> St BeaconState B), hold1 m -> (forall a t, inv1 t -> inv2 (snd (k a t))) -> forall t, inv1 t -> inv2 (snd (sbind m k t))).
  { intros A B m k H1 H2 t It. specialize (H1 t It). unfold sbind. destruct (m t) as [[a| | |] t']; cbn [snd] in *; auto. }
  revert u I. apply G; [apply hi_quiet; qt|]. intros _. apply G; [apply hi_for; intros op Hop; apply hold1_proposer; exact Hop|]. intros _.
  apply G; [apply hi_for; intros op Hop; apply hold1_attester; exact Hop|]. intros _ t It. apply W in It. revert t It.
  match goal with |- forall t, inv2 t -> inv2 (snd (?m t)) => change (hold2 m) end.
  apply hi_bind; [apply hi_quiet; qt; apply quiet_attestation|]. intros _.
  apply hi_bind; [apply hi_for; intros d Hd; apply hold2_deposit; exact Hd|]. intros _.
  apply hi_bind; [apply hi_for; intros d Hd; apply hold2_voluntary; exact Hd|]. intros _.
  apply hi_bind; [apply hi_when; intros Hf; apply hi_for; intros d Hd; apply hold2_bls; assumption|]. intros _.
  apply hi_when. intros Hf. assert (He : f = Electra) by (clear - Hf; destruct f; first [reflexivity|discriminate Hf]).
  apply hi_bind; [apply hi_for; intros d Hd; apply hold2_request; assumption|]. intros _.
  apply hi_bind; [|intros _; apply hi_for; intros d Hd; apply hold2_consolidation; assumption].
  apply hi_for. intros r Hr. unfold process_deposit_receipt. apply hi_bind; [apply hi_quiet; apply pres_md; intros t; destruct (_ =? _); [constructor; gs; reflexivity|apply quiet_refl]|].
  intros _. apply hold2_apply_electra; [exact He|]. right. exists r. auto.
Qed.
Lemma blk_block : inv2 (snd (process_block E f b s0)).
Proof.
  assert (W : forall t, inv1 t -> inv2 t) by (intros t; apply inv_weaken; [auto|intros ? []]).
  assert (G : forall (A B : Type) (m : St BeaconState A) (k : A -> St BeaconState B), hold1 m -> (forall a t, inv1 t -> inv2 (snd (k a t))) -> forall t, inv1 t -> inv2 (snd (sbind m k t))).
  { intros A B m k H1 H2 t It. specialize (H1 t It). unfold sbind. destruct (m t) as [[a| | |] t']; cbn [snd] in *; auto. }
  assert (I : inv1 s0) by (apply inv_start; intros i v _; constructor; auto; apply due_refl).
  unfold process_block. cbv zeta. revert I. generalize s0 at 2 4. apply G; [apply hi_quiet; unfold process_block_header; qt|]. intros _.
  apply G. { apply hi_quiet. destruct f; qt; unfold process_execution_payload, process_withdrawals; qt. } intros _.
  apply G; [apply hi_quiet; unfold process_randao; qt|]. intros _. apply G; [apply hi_quiet; unfold process_eth1_data; qt|]. intros _ t It.
  unfold sbind. pose proof (blk_operations t It) as O. destruct (process_operations E f body t) as [[a| | |] t']; cbn [snd] in *; try exact O. revert t' O.
  match goal with |- forall t, inv2 t -> inv2 (snd (?m t)) => change (hold2 m) end. apply hi_quiet. unfold process_sync_aggregate, sync_step. qt.
Qed.
End Blk.

(** ** Epochs *)
Definition kc (s t : BeaconState) : Prop := pending_consolidations t = pending_consolidations s.
Lemma kc_refl s : kc s s. Proof. reflexivity. Qed.
Lemma kc_trans a b c : kc a b -> kc b c -> kc a c. Proof. unfold kc. congruence. Qed.
Lemma kc_mod i g : pres kc (mod_validator i g).
Proof. intros s. unfold mod_validator, sbind, rd, md. destruct (idx (validators s) i); cbn [snd]; try apply kc_refl. unfold kc. gs. reflexivity. Qed.
Ltac kc1 :=
  match goal with
  | |- forall _, _ => intro
  | |- pres kc (sbind _ _) => apply pres_bind; [exact kc_trans| |]
  | |- pres kc (rd _) => apply pres_rd; exact kc_refl
  | |- pres kc (lift _) => apply pres_lift; exact kc_refl
  | |- pres kc (sret _) => apply pres_ret; exact kc_refl
  | |- pres kc (swhen _ _) => apply pres_when; [exact kc_refl|]
  | |- pres kc (sfor _ _) => apply pres_for; [exact kc_refl|exact kc_trans|]
  | |- pres kc (mod_validator _ _) => apply kc_mod
  | |- pres kc (match ?x with _ => _ end) => destruct x
  | |- pres kc (let _ := _ in _) => cbv zeta
  | |- pres kc (md _) => apply pres_md; intro; unfold kc; gs; reflexivity
  end.
Ltac kcs := repeat kc1.

Section Ep.
Variables (E : Env) (f : Fork) (s0 : BeaconState).
Hypothesis Hc : ctx_sane E.

Definition nobody (v : Validator) : Prop := False.
Record alink (i : N) (v v' : Validator) : Prop := mkAlink {
  al_pk : v_public_key v' = v_public_key v; al_slashed : v_slashed v' = v_slashed v; al_cred : v_withdrawal_credentials v' = v_withdrawal_credentials v;
  al_act : v_activation_epoch v' = v_activation_epoch v; al_eff : v_effective_balance v' = v_effective_balance v;
  al_exit : v_exit_epoch v' = v_exit_epoch v \/ ejected E s0 v }.
Record elink (i : N) (v v' : Validator) : Prop := mkElink {
  el_pk : v_public_key v' = v_public_key v; el_slashed : v_slashed v' = v_slashed v; el_exit : v_exit_epoch v' = v_exit_epoch v \/ ejected E s0 v;
  el_cred : v_withdrawal_credentials v' = v_withdrawal_credentials v
    \/ (consolidation_target f s0 i /\ nthN (v_withdrawal_credentials v) 0 = Some 1 /\ v_withdrawal_credentials v' = 2 :: skipn 1 (v_withdrawal_credentials v)) }.
Definition PA (u : BeaconState) : Prop := inv s0 alink nobody u /\ kc s0 u.
Definition PB (u : BeaconState) : Prop := inv s0 elink nobody u /\ kc s0 u.
Definition hp (P : BeaconState -> Prop) {A} (m : St BeaconState A) : Prop := forall u, P u -> P (snd (m u)).
Lemma hp_bind (P Q : BeaconState -> Prop) {A B} (m : St BeaconState A) (k : A -> St BeaconState B) : hp P m -> (forall u, P u -> Q u) ->
  (forall a u0, P u0 -> fst (m u0) = Ok a -> forall u, P u -> Q (snd (k a u))) -> forall u, P u -> Q (snd (sbind m k u)).
Proof. intros H1 H2 H3 u Hu. specialize (H1 u Hu). specialize (H3). unfold sbind. destruct (m u) as [[a| | |] t] eqn:Hm; cbn [snd] in *; auto. apply (H3 a u Hu); [rewrite Hm; reflexivity|exact H1]. Qed.
Lemma hpa {A} (m : St BeaconState A) : holdI s0 alink nobody m -> pres kc m -> hp PA m.
Proof. intros H1 H2 u [U1 U2]. split; [apply H1; exact U1|eapply kc_trans; [exact U2|apply H2]]. Qed.
Lemma hpb {A} (m : St BeaconState A) : holdI s0 elink nobody m -> pres kc m -> hp PB m.
Proof. intros H1 H2 u [U1 U2]. split; [apply H1; exact U1|eapply kc_trans; [exact U2|apply H2]]. Qed.
Lemma pa_pb u : PA u -> PB u.
Proof.
  intros [H1 H2]. split; [|exact H2]. eapply inv_weaken; [|intros v X; exact X|exact H1]. intros i v v' _ [L1 L2 L3 L4 L5 L6]. constructor; auto.
Qed.

Lemma act_of_link u i v v' : inv s0 alink nobody u -> alink i v v' -> is_active_validator v' (epoch_of E u) = true -> v_effective_balance v' <= EJECTION_BALANCE E -> ejected E s0 v.
Proof.
  intros I [L1 L2 L3 L4 L5 L6] Ha Hl. destruct L6 as [L6|L6]; [|exact L6]. split; [|rewrite <- L5; exact Hl]. apply active_spec in Ha.
  unfold active_at. assert (Hs : epoch_of E u = epoch_of E s0) by (unfold epoch_of; rewrite (iv_slot _ _ _ _ I); reflexivity). rewrite Hs, L4, L6 in Ha.
  destruct Ha as [H1 H2]. apply N.leb_le in H1. apply N.ltb_lt in H2. rewrite H1, H2. reflexivity.
Qed.
Lemma registry_a cur i : cur = epoch_of E s0 -> holdI s0 alink nobody (registry_step E f cur i).
Proof.
  intros Hcur. unfold registry_step. apply hi_bind; [apply hi_quiet; qt|]. intros v. apply hi_bind.
  { apply hi_when. intros _. apply hi_bind; [apply hi_quiet; qt|]. intros e. apply hi_mod; [|intros _ v' []]. intros w w' _ [L1 L2 L3 L4 L5 L6]. constructor; gs; assumption. }
  intros _. apply hi_rd. intros u v' I Hv. apply idx_ok in Hv. apply hi_when. intros Hb. apply andb_true_iff in Hb as [Hb1 Hb2]. apply N.leb_le in Hb2.
  destruct (inv_at _ _ _ _ _ _ I Hv) as [(w & A1 & A2)|[_ []]].
  assert (Hej : ejected E s0 w). { apply (act_of_link u i w v' I A2); [|exact Hb2]. rewrite Hcur in Hb1. unfold epoch_of in *. rewrite (iv_slot _ _ _ _ I). exact Hb1. }
  apply hi_exit; [intros j x x' y [L1 L2 L3 L4 L5 L6]; constructor; gs; assumption|intros x y []|]. split; [eapply nthN_some; eauto|].
  intros x x' q Hx [L1 L2 L3 L4 L5 L6]. rewrite A1 in Hx. injection Hx as <-. constructor; gs; auto.
Qed.
Lemma kc_exit i : pres kc (initiate_exit E f i).
Proof. destruct f; unfold initiate_exit, initiate_validator_exit, initiate_validator_exit_electra, compute_exit_epoch_and_update_churn; kcs. Qed.
Lemma registry_b u : PA u -> PB (snd (process_registry_updates E f u)).
Proof.
  unfold process_registry_updates. revert u. apply (hp_bind PA PB); [apply hpa; [apply hi_quiet; qt|kcs]|apply pa_pb|]. intros cur u0 Hu0 Hr.
  assert (Hcur : cur = epoch_of E s0). { unfold rd in Hr. cbn [fst] in Hr. rewrite (current_epoch_ok E Hc) in Hr. injection Hr as <-. unfold epoch_of. rewrite (iv_slot _ _ _ _ (proj1 Hu0)). reflexivity. }
  clear u0 Hu0 Hr.
  apply (hp_bind PA PB); [apply hpa; [apply hi_quiet; qt|kcs]|apply pa_pb|]. intros n u0 Hu0 _. clear u0 Hu0.
  apply (hp_bind PA PB); [|apply pa_pb|].
  { apply hpa; [apply hi_for; intros i _; apply registry_a; exact Hcur|]. unfold registry_step. kcs. apply kc_exit. }
  intros _ u0 Hu0 _. clear u0 Hu0. intros u Hu. apply pa_pb in Hu. revert u Hu.
  match goal with |- forall u, PB u -> PB (snd (?m u)) => change (hp PB m) end.
  assert (M : forall i ae, holdI s0 elink nobody (mod_validator i (set_v_activation_epoch ae))).
  { intros i ae. apply hi_mod; [|intros _ v' []]. intros v v' _ [L1 L2 L3 L4]. constructor; gs; assumption. }
  apply hpb; [|destruct f; kcs].
  assert (G : forall lim, holdI s0 elink nobody (let* queue := rd (fun s => Ok (activation_queue s)) in let* ae := lift (compute_activation_exit_epoch E cur) in let* limit := rd lim in
      sfor (firstN limit queue) (fun i => mod_validator i (set_v_activation_epoch ae)))).
  { intros lim. apply hi_bind; [apply hi_quiet; qt|]. intros q. apply hi_bind; [apply hi_quiet; qt|]. intros ae. apply hi_bind; [apply hi_quiet; qt|]. intros l. apply hi_for. intros x _. apply M. }
  destruct f; try apply G. apply hi_bind; [apply hi_quiet; qt|]. intros ae. apply hi_for. intros x _. apply hi_bind; [apply hi_quiet; qt|]. intros v. apply hi_bind; [apply hi_quiet; qt|]. intros e.
  apply hi_when. intros _. apply M.
Qed.
Lemma epoch_switch i : consolidation_target f s0 i -> holdI s0 elink nobody (switch_to_compounding_validator E i).
Proof.
  intros H u I. unfold switch_to_compounding_validator, sbind at 1, rd at 1. destruct (idx (validators u) i) as [v1| | |] eqn:Hv; cbn [snd]; try exact I.
  destruct (has_eth1_withdrawal_credential v1) eqn:He; [|exact I]. apply idx_ok in Hv. apply eth1_first in He.
  set (g := fun v => set_v_withdrawal_credentials (COMPOUNDING_WITHDRAWAL_PREFIX :: skipn 1 (v_withdrawal_credentials v)) v).
  unfold sbind at 1. rewrite (mod_validator_run u i g v1 Hv). cbn beta iota.
  assert (I' : inv s0 elink nobody (set_validators (updN (validators u) i (g v1)) u)).
  { pose proof (nthN_some _ _ _ Hv) as Hl. destruct I as [I1 I2 I3 I4 I5]. constructor; gs; try assumption.
    - intros j v Hj. destruct (I4 j v Hj) as (v' & A1 & A2). destruct (N.eq_dec j i) as [->|Hn]; [|exists v'; rewrite nthN_updN_ne by congruence; auto].
      exists (g v1). rewrite nthN_updN_eq by exact Hl. split; [reflexivity|]. rewrite Hv in A1. injection A1 as <-. destruct A2 as [L1 L2 L3 L4]. unfold g.
      constructor; gs; try assumption. right. split; [exact H|]. destruct L4 as [L4|(_ & _ & L4)]; [rewrite <- L4; auto|]. rewrite L4, nthN_cons in He. discriminate He.
    - intros j v' Hj Hi. destruct (N.eq_dec j i) as [->|Hn]; [|rewrite nthN_updN_ne in Hj by congruence; eapply I5; eauto]. destruct (I5 i v1 Hv Hi). }
  clearbody g. revert I'. generalize (set_validators (updN (validators u) i (g v1)) u). intros u' I'. revert u' I'. change (holdI s0 elink nobody (queue_excess_active_balance E i)). apply hi_quiet.
  unfold queue_excess_active_balance. qt.
Qed.
Lemma epoch_loop l : f = Electra -> (forall c, In c l -> In c (pending_consolidations s0)) -> forall n, holdI s0 elink nobody (pending_consolidations_loop E l n).
Proof.
  intros Hf. induction l as [|c l IH]; intros Hl n; cbn [pending_consolidations_loop]; [apply hi_quiet; qt|]. assert (IH' := IH (fun c' H' => Hl c' (or_intror H'))).
  apply hi_bind; [apply hi_quiet; qt|]. intros src. destruct (v_slashed src); [apply IH'|]. apply hi_bind; [apply hi_quiet; qt|]. intros cur. destruct (_ <? _); [apply hi_quiet; qt|].
  apply hi_bind; [apply epoch_switch; split; [exact Hf|exists c; split; [apply Hl; left; reflexivity|reflexivity]]|]. intros _. apply hi_bind; [apply hi_quiet; qt|]. intros ab.
  apply hi_bind; [apply hi_quiet; qt|]. intros _. apply hi_bind; [apply hi_quiet; qt|]. intros _. apply IH'.
Qed.
Lemma quiet_deposits l : forall a p c, pres quiet (pending_deposits_loop E l a p c).
Proof. induction l as [|d l IH]; intros a p c; cbn [pending_deposits_loop]; qt. apply IH. Qed.
Lemma kc_deposits l : forall a p c, pres kc (pending_deposits_loop E l a p c).
Proof. induction l as [|d l IH]; intros a p c; cbn [pending_deposits_loop]; unfold increase_balance; kcs. apply IH. Qed.
Lemma epoch_rest_b u : PB u -> inv s0 elink nobody (snd ((process_slashings E f ;; process_eth1_data_reset E ;;
  swhen (fork_le Electra f) (process_pending_balance_deposits E ;; process_pending_consolidations E) ;; process_effective_balance_updates E f ;; process_slashings_reset E ;;
  process_randao_mixes_reset E ;; process_historical_update E f ;;
  (match f with Phase0 => process_participation_record_updates | _ => process_participation_flag_updates ;; process_sync_committee_updates E end)) u)).
Proof.
  assert (W : forall t, PB t -> inv s0 elink nobody t) by (intros t H; apply H).
  revert u. apply (hp_bind PB); [apply hpb; [apply hi_quiet; unfold process_slashings, slashings_step; qt|unfold process_slashings, slashings_step, decrease_balance; kcs]|exact W|]. intros _ u0 _ _.
  apply (hp_bind PB); [apply hpb; [apply hi_quiet; unfold process_eth1_data_reset; qt|unfold process_eth1_data_reset; kcs]|exact W|]. intros _ u1 _ _.
  assert (T : holdI s0 elink nobody (process_effective_balance_updates E f ;; process_slashings_reset E ;; process_randao_mixes_reset E ;; process_historical_update E f ;;
    (match f with Phase0 => process_participation_record_updates | _ => process_participation_flag_updates ;; process_sync_committee_updates E end))).
  { apply hi_bind.
    - unfold process_effective_balance_updates, effective_balance_step. apply hi_bind; [apply hi_quiet; qt|]. intros th. apply hi_bind; [apply hi_quiet; qt|]. intros n. apply hi_for. intros i _.
      apply hi_bind; [apply hi_quiet; qt|]. intros v. apply hi_bind; [apply hi_quiet; qt|]. intros ba. apply hi_bind; [apply hi_quiet; qt|]. intros c. apply hi_when. intros _.
      apply hi_bind; [apply hi_quiet; qt|]. intros e. apply hi_mod; [|intros _ v' []]. intros w w' _ [L1 L2 L3 L4]. constructor; gs; assumption.
    - intros _. apply hi_quiet. unfold process_slashings_reset, process_randao_mixes_reset, process_historical_update, process_participation_record_updates, process_participation_flag_updates, process_sync_committee_updates.
      qt. }
  intros u Hu. unfold sbind at 1.
  match goal with |- inv _ _ _ (snd (match ?m u with _ => _ end)) => assert (O : inv s0 elink nobody (snd (m u))) end.
  { destruct (fork_le Electra f) eqn:Hf; cbn [swhen]; [|exact (W _ Hu)]. assert (He : f = Electra) by (clear - Hf; destruct f; first [reflexivity|discriminate Hf]).
    revert u Hu. apply (hp_bind PB); [apply hpb|exact W|].
    - apply hi_quiet. unfold process_pending_balance_deposits. qt. apply quiet_deposits.
    - unfold process_pending_balance_deposits. kcs. apply kc_deposits.
    - intros _ u2 _ _ u [U1 U2]. unfold process_pending_consolidations, sbind at 1, rd at 1. revert U1. rewrite U2. generalize u. clear u U2.
      match goal with |- forall u, _ -> inv _ _ _ (snd (?m u)) => change (holdI s0 elink nobody m) end.
      apply hi_bind; [apply epoch_loop; auto|]. intros n. apply hi_quiet. qt. }
  destruct (swhen _ _ u) as [[a| | |] t]; cbn [snd] in *; try exact O. apply T. exact O.
Qed.
Lemma ep_epoch : inv s0 elink nobody (snd (process_epoch E f s0)).
Proof.
  assert (I : PA s0) by (split; [apply inv_start; intros i v _; constructor; auto|apply kc_refl]).
  assert (W : forall t, PA t -> inv s0 elink nobody t) by (intros t H; apply pa_pb in H; apply H).
  unfold process_epoch. revert I. apply (hp_bind PA (inv s0 elink nobody)).
  { apply hpa; unfold process_justification_and_finalization, weigh_justification_and_finalization, justify, finalize_if; [apply hi_quiet; qt|kcs]. } { exact W. } intros _ u0 _ _.
  apply (hp_bind PA). { apply hpa; unfold process_inactivity_updates, inactivity_update_step; [apply hi_quiet; qt|kcs]. } { exact W. } intros _ u1 _ _.
  apply (hp_bind PA). { apply hpa; unfold process_rewards_and_penalties, apply_deltas; [apply hi_quiet; qt|unfold increase_balance, decrease_balance; kcs]. } { exact W. } intros _ u2 _ _ u Hu.
  pose proof (registry_b u Hu) as R. unfold sbind at 1. destruct (process_registry_updates E f u) as [[a| | |] t]; cbn [snd] in *; try apply R. apply epoch_rest_b. exact R.
Qed.
End Ep.

(** ** Upgrades *)
Section Up.
Variable E : Env.
Record ulink (i : N) (v v' : Validator) : Prop := mkUlink {
  ul_pk : v_public_key v' = v_public_key v; ul_slashed : v_slashed v' = v_slashed v; ul_exit : v_exit_epoch v' = v_exit_epoch v;
  ul_cred : v_withdrawal_credentials v' = v_withdrawal_credentials v }.
Definition up (s t : BeaconState) : Prop := forall i v', nthN (validators t) i = Some v' -> exists v, nthN (validators s) i = Some v /\ ulink i v v'.
Lemma up_same s t : validators t = validators s -> up s t.
Proof. intros H i v'. rewrite H. intros Hv. exists v'. split; [exact Hv|]. constructor; reflexivity. Qed.
Lemma up_electra s t : upgrade_to_electra E s = Ok t -> up s t /\ slot t = slot s /\ pending_consolidations t = [].
Proof.
  intros H. unfold upgrade_to_electra in H. apply rbind_ok_inv in H as (e & _ & H). apply rbind_ok_inv in H as (ee & _ & H). apply rbind_ok_inv in H as (ec & _ & H).
  set (s0 := electra_base E e ee ec s) in *. destruct (electra_finish E s0) as [r post] eqn:Hp. apply rbind_ok_inv in H as (u & _ & H). apply Ok_inj in H. subst post.
  assert (I0 : inv s0 ulink nobody s0) by (apply inv_start; intros i v _; constructor; reflexivity).
  assert (K : holdI s0 ulink nobody (electra_finish E)).
  { unfold electra_finish. apply hi_bind; [apply hi_quiet; qt|]. intros a. apply hi_bind; [apply hi_quiet; qt|]. intros _. apply hi_bind; [apply hi_quiet; qt|]. intros c.
    apply hi_bind; [apply hi_quiet; qt|]. intros _. apply hi_bind; [apply hi_quiet; qt|]. intros pre. apply hi_bind; [|intros _; apply hi_quiet; unfold queue_excess_active_balance; qt].
    apply hi_for. intros x _. unfold queue_entire_balance_and_reset_validator. apply hi_bind; [apply hi_quiet; qt|]. intros ba. apply hi_bind; [apply hi_quiet; qt|]. intros _.
    apply hi_bind; [|intros _; apply hi_quiet; qt]. apply hi_mod; [|intros _ v' []]. intros w w' _ [L1 L2 L3 L4]. constructor; gs; assumption. }
  assert (C : pres kc (electra_finish E)). { unfold electra_finish, queue_entire_balance_and_reset_validator, queue_excess_active_balance. kcs. }
  specialize (K s0 I0). specialize (C s0). rewrite Hp in K, C. cbn [snd] in K, C. split; [|split; [exact (iv_slot _ _ _ _ K)|exact C]].
  intros i v' Hv. destruct (inv_at _ _ _ _ _ _ K Hv) as [(v & A1 & A2)|[_ []]]. exists v. split; [exact A1|exact A2].
Qed.
Lemma up_call f g s t : chain_call E (f, s) (g, t) -> f <> g -> up s t /\ slot t = slot s /\ pending_consolidations t = [].
Proof.
  intros H Hne. inversion H; subst; try congruence.
  - match goal with H : upgrade_to_altair E s = Ok t |- _ => rename H into Hu end. unfold upgrade_to_altair in Hu. rinv Hu. subst t. gs.
    match goal with H : translate_participation _ _ _ = Ok _ |- _ => unfold translate_participation in H; rinv H; subst end. unfold altair_base. gs. split; [apply up_same; gs; reflexivity|split; reflexivity].
  - match goal with H : upgrade_to_bellatrix E s = Ok t |- _ => unfold upgrade_to_bellatrix in H; rinv H; subst end. split; [apply up_same; reflexivity|split; reflexivity].
  - match goal with H : upgrade_to_capella E s = Ok t |- _ => unfold upgrade_to_capella in H; rinv H; subst end. split; [apply up_same; reflexivity|split; reflexivity].
  - match goal with H : upgrade_to_deneb E s = Ok t |- _ => unfold upgrade_to_deneb in H; rinv H; subst end. split; [apply up_same; reflexivity|split; reflexivity].
  - apply up_electra. assumption.
Qed.
End Up.

(** ** Where queued consolidations come from *)
Lemma kc_fold {A B} (l : list A) (body : B -> A -> St BeaconState B) b : (forall b x, pres kc (body b x)) -> pres kc (sfold body l b).
Proof. intros. apply pres_fold; auto using kc_refl. exact kc_trans. Qed.
Lemma kc_increase (E : Env) i d : pres kc (increase_balance E i d). Proof. unfold increase_balance. kcs. Qed.
Lemma kc_decrease (E : Env) i d : pres kc (decrease_balance E i d). Proof. unfold decrease_balance. kcs. Qed.
Ltac kd1 := first [kc1 | apply kc_fold | apply kc_increase | apply kc_decrease | apply kc_exit].
Ltac kd := repeat kd1.
Lemma kc_slash (E : Env) f i : pres kc (slash_validator E f i None). Proof. unfold slash_validator. kd. Qed.
Lemma kc_attestation (E : Env) f a : pres kc (process_attestation E f a).
Proof.
  assert (A : pres kc (process_attestation_altair E f a)).
  { unfold process_attestation_altair, attestation_flag_step, set_participation. kd. apply pres_md. intros t. unfold kc. destruct b; gs; reflexivity. }
  assert (B : pres kc (process_attestation_phase0 E a)) by (unfold process_attestation_phase0; kd).
  unfold process_attestation. destruct f; assumption.
Qed.
Lemma kc_apply_electra (E : Env) pk wc amount sg : pres kc (apply_deposit_electra E pk wc amount sg).
Proof. unfold apply_deposit_electra, switch_to_compounding_validator, queue_excess_active_balance, add_validator_to_registry. kd. Qed.
Lemma kc_deposit (E : Env) f d : pres kc (process_deposit E f d).
Proof.
  unfold process_deposit. kd. unfold apply_deposit. destruct f; try apply kc_apply_electra; unfold apply_deposit_phase0, add_validator_to_registry; kd.
Qed.

Section Blk2.
Variables (E : Env) (f : Fork) (s0 : BeaconState) (b : BeaconBlock).
Hypothesis Hc : ctx_sane E.
Hypothesis Hsl : slot s0 < 2 ^ 64 - 1.
Notation body := (bk_body b).
Definition signed_queue (u : BeaconState) : Prop :=
  forall c, In c (pending_consolidations u) -> In c (pending_consolidations s0) \/ asks_consolidation E f s0 b (pc_source_index c) (pc_target_index c).
Definition Q1 (u : BeaconState) : Prop := inv s0 (blink E f s0 b) (fun _ => False) u /\ kc s0 u.
Definition Q2 (u : BeaconState) : Prop := inv s0 (blink E f s0 b) bfresh u /\ signed_queue u.
Lemma q1 {A} (m : St BeaconState A) : holdI s0 (blink E f s0 b) (fun _ => False) m -> pres kc m -> hp Q1 m.
Proof. intros H1 H2 u [U1 U2]. split; [apply H1; exact U1|eapply kc_trans; [exact U2|apply H2]]. Qed.
Lemma q2 {A} (m : St BeaconState A) : holdI s0 (blink E f s0 b) bfresh m -> pres kc m -> hp Q2 m.
Proof. intros H1 H2 u [U1 U2]. split; [apply H1; exact U1|]. specialize (H2 u). unfold kc in H2. intros c. rewrite H2. apply U2. Qed.
Lemma q12 u : Q1 u -> Q2 u.
Proof. intros [U1 U2]. split; [refine (inv_weaken _ _ _ _ _ _ _ _ U1); [auto|intros v []]|]. intros c. rewrite U2. auto. Qed.
Lemma hp_for (P : BeaconState -> Prop) {A} (l : list A) (k : A -> St BeaconState unit) : (forall x, In x l -> hp P (k x)) -> hp P (sfor l k).
Proof.
  induction l as [|x l IH]; intros H; cbn [sfor]; [intros u Hu; exact Hu|]. intros u. apply (hp_bind P P); [apply H; left; reflexivity|auto|]. intros _ u0 _ _. apply IH. intros y Hy. apply H. right. exact Hy.
Qed.
Lemma q_consolidation op : f = Electra -> In op (bb_consolidations body) -> hp Q2 (process_consolidation E op).
Proof.
  intros Hf Hop u [U1 U2]. split; [apply hold2_consolidation; assumption|].
  unfold process_consolidation, sbind at 1, rd at 1. cbv zeta. destruct (consolidation_checks E op u) as [[src tgt]| | |] eqn:H; cbn [snd]; try exact U2.
  assert (Hd : asks_consolidation E f s0 b (cn_source_index (scn_message op)) (cn_target_index (scn_message op))).
  { unfold consolidation_checks in H. cbv zeta in H. rinv H. injection H as -> ->.
    rewrite (current_epoch_ok E Hc) in *. repeat match goal with K : Ok _ = Ok _ |- _ => apply Ok_inj in K; subst end.
    match goal with K : negb (_ =? _) = true |- _ => apply negb_true_iff, N.eqb_neq in K; rename K into Hne end.
    match goal with K : nthN (validators u) (cn_source_index _) = Some _ |- _ => rename K into Hs end. match goal with K : nthN (validators u) (cn_target_index _) = Some _ |- _ => rename K into Ht end.
    destruct (inv_at _ _ _ _ _ _ U1 Hs) as [(ws & S1 & S2)|[_ Hfr]]; [|match goal with K : is_active_validator src _ = true |- _ => destruct (not_active E f s0 b Hc Hsl u src U1 Hfr K) end].
    destruct (inv_at _ _ _ _ _ _ U1 Ht) as [(wt & T1 & T2)|[_ Hfr]]; [|match goal with K : is_active_validator tgt _ = true |- _ => destruct (not_active E f s0 b Hc Hsl u tgt U1 Hfr K) end].
    split; [exact Hf|]. exists op, ws, wt. split; [exact Hop|]. split; [reflexivity|]. split; [reflexivity|]. split; [exact Hne|]. split; [exact S1|]. split; [exact T1|].
    match goal with K : compute_domain _ _ _ _ = Ok ?d, L : compute_signing_root _ _ _ = Ok ?r, M : fast_aggregate_verify_ok _ _ _ _ = true |- _ => exists d, r; rename K into Hd, L into Hr, M into Hm end.
    rewrite (iv_gvr _ _ _ _ U1) in Hd. split; [apply (compute_domain_ok E DConsolidation (GENESIS_FORK_VERSION E)); exact Hd|]. split; [apply signing_root_ok; exact Hr|].
    rewrite <- (bl_pk _ _ _ _ _ _ _ S2), <- (bl_pk _ _ _ _ _ _ _ T2). exact Hm. }
  clear H. revert u U1 U2. cbn [fst].
  assert (K : forall (A : Type) (m : St BeaconState A) (k : A -> St BeaconState unit), pres kc m -> (forall a, hp signed_queue (k a)) -> forall u, inv s0 (blink E f s0 b) bfresh u -> signed_queue u -> signed_queue (snd (sbind m k u))).
  { intros A m k H1 H2 u _ U2. specialize (H1 u). unfold kc in H1. unfold sbind. destruct (m u) as [[a| | |] t]; cbn [snd] in *; try (intros c; rewrite H1; apply U2). apply H2. intros c. rewrite H1. apply U2. }
  assert (K' : forall (A : Type) (m : St BeaconState A) (k : A -> St BeaconState unit), pres kc m -> (forall a, hp signed_queue (k a)) -> hp signed_queue (sbind m k)).
  { intros A m k H1 H2 u U2. specialize (H1 u). unfold kc in H1. unfold sbind. destruct (m u) as [[a| | |] t]; cbn [snd] in *; try (intros c; rewrite H1; apply U2). apply H2. intros c. rewrite H1. apply U2. }
  apply K; [unfold compute_consolidation_epoch_and_update_churn; kd|]. intros q. apply K'; [kd|]. intros _. apply K'; [kd|]. intros w. apply K'; [kd|]. intros _ u U2.
  unfold md. cbn [snd]. intros c. gs. intros Hin. apply in_app_or in Hin. destruct Hin as [Hin|[<-|[]]]; [apply U2; exact Hin|]. right. exact Hd.
Qed.
Lemma q_block : Q2 (snd (process_block E f b s0)).
Proof.
  assert (I : Q1 s0) by (split; [apply inv_start; intros i v _; constructor; auto; apply due_refl|apply kc_refl]).
  unfold process_block. cbv zeta. revert I. apply (hp_bind Q1 Q2); [apply q1; unfold process_block_header; [apply hi_quiet; qt|kd]|exact q12|]. intros _ u0 _ _.
  apply (hp_bind Q1 Q2). { apply q1; [apply hi_quiet; destruct f; qt; unfold process_execution_payload, process_withdrawals; qt|destruct f; kd; unfold process_execution_payload, process_withdrawals; kd]. } { exact q12. }
  intros _ u1 _ _. apply (hp_bind Q1 Q2); [apply q1; unfold process_randao; [apply hi_quiet; qt|kd]|exact q12|]. intros _ u2 _ _.
  apply (hp_bind Q1 Q2); [apply q1; unfold process_eth1_data; [apply hi_quiet; qt|kd]|exact q12|]. intros _ u3 _ _ u Hu.
  assert (O : Q2 (snd (process_operations E f body u))).
  { unfold process_operations. revert u Hu. apply (hp_bind Q1 Q2); [apply q1; [apply hi_quiet; qt|kd]|exact q12|]. intros _ u4 _ _.
    apply (hp_bind Q1 Q2). { apply q1; [apply hi_for; intros op Hop; apply hold1_proposer; assumption|unfold process_proposer_slashing; kd; apply kc_slash]. } { exact q12. } intros _ u5 _ _.
    apply (hp_bind Q1 Q2). { apply q1; [apply hi_for; intros op Hop; apply hold1_attester; assumption|unfold process_attester_slashing; kd; apply kc_slash]. } { exact q12. } intros _ u6 _ _ u Hu.
    apply q12 in Hu. revert u Hu. apply (hp_bind Q2 Q2); [apply q2; [apply hi_quiet; qt; apply quiet_attestation|kd; apply kc_attestation]|auto|]. intros _ u7 _ _.
    apply (hp_bind Q2 Q2); [apply q2; [apply hi_for; intros d Hd; apply hold2_deposit; assumption|kd; apply kc_deposit]|auto|]. intros _ u8 _ _.
    apply (hp_bind Q2 Q2); [apply q2; [apply hi_for; intros d Hd; apply hold2_voluntary; assumption|unfold process_voluntary_exit; kd]|auto|]. intros _ u9 _ _.
    apply (hp_bind Q2 Q2); [apply q2; [apply hi_when; intros Hf; apply hi_for; intros d Hd; apply hold2_bls; assumption|unfold process_bls_to_execution_change; kd]|auto|]. intros _ u10 _ _.
    destruct (fork_le Electra f) eqn:Hf; cbn [swhen]; [|intros u Hu; exact Hu]. assert (He : f = Electra) by (clear - Hf; destruct f; first [reflexivity|discriminate Hf]).
    apply (hp_bind Q2 Q2).
    { apply q2; [apply hi_for; intros d Hd; apply hold2_request; assumption|]. unfold process_execution_layer_withdrawal_request, compute_exit_epoch_and_update_churn. kd. apply (kc_exit E Electra). }
    { auto. } intros _ u11 _ _.
    apply (hp_bind Q2 Q2); [|auto|intros _ u12 _ _; apply hp_for; intros op Hop; apply q_consolidation; assumption].
    apply q2.
    - apply hi_for. intros r Hr. unfold process_deposit_receipt. apply hi_bind; [apply hi_quiet; apply pres_md; intros t; destruct (_ =? _); [constructor; gs; reflexivity|apply quiet_refl]|].
      intros _. apply hold2_apply_electra; [exact He|]. right. exists r. auto.
    - unfold process_deposit_receipt. kd; [|apply kc_apply_electra]. apply pres_md. intros t. unfold kc. destruct (_ =? _); gs; reflexivity. }
  unfold sbind. destruct (process_operations E f body u) as [[a| | |] t']; cbn [snd] in *; try exact O. revert t' O.
  match goal with |- forall t, Q2 t -> Q2 (snd (?m t)) => change (hp Q2 m) end. apply q2; unfold process_sync_aggregate, sync_step; [apply hi_quiet; qt|kd].
Qed.
End Blk2.
Lemma epoch_queue (E : Env) f s : incl (pending_consolidations (snd (process_epoch E f s))) (pending_consolidations s).
Proof.
  set (R := fun a t : BeaconState => incl (pending_consolidations t) (pending_consolidations a)).
  assert (Rr : forall a, R a a) by (intros a; apply incl_refl). assert (Rt : forall a b c, R a b -> R b c -> R a c) by (intros a b c H1 H2; eapply incl_tran; eauto).
  assert (K : forall (A : Type) (m : St BeaconState A), pres kc m -> pres R m) by (intros A m H; eapply pres_weaken; [|exact H]; intros a c X; unfold R; rewrite X; apply incl_refl).
  enough (G : pres R (process_epoch E f)) by exact (G s). unfold process_epoch.
  apply pres_bind; [exact Rt|apply K; unfold process_justification_and_finalization, weigh_justification_and_finalization, justify, finalize_if; kd|]. intros _.
  apply pres_bind; [exact Rt|apply K; unfold process_inactivity_updates, inactivity_update_step; kd|]. intros _.
  apply pres_bind; [exact Rt|apply K; unfold process_rewards_and_penalties, apply_deltas; kd|]. intros _.
  apply pres_bind; [exact Rt|apply K; unfold process_registry_updates, registry_step; kd|]. intros _.
  apply pres_bind; [exact Rt|apply K; unfold process_slashings, slashings_step; kd|]. intros _.
  apply pres_bind; [exact Rt|apply K; unfold process_eth1_data_reset; kd|]. intros _.
  apply pres_bind; [exact Rt| |].
  { apply pres_when; [exact Rr|]. apply pres_bind; [exact Rt|apply K; unfold process_pending_balance_deposits; kd; apply kc_deposits|]. intros _. unfold process_pending_consolidations.
    apply pres_bind; [exact Rt|apply K; kd|]. intros l. apply pres_bind; [exact Rt| |].
    - apply K. assert (L : forall l n, pres kc (pending_consolidations_loop E l n)); [|apply L].
      induction l0 as [|c l0 IH]; intros n; cbn [pending_consolidations_loop]; unfold switch_to_compounding_validator, queue_excess_active_balance; kd; apply IH.
    - intros n. apply pres_md. intros t. unfold R. gs. intros c Hin. unfold skipN in Hin. rewrite <- (firstn_skipn (N.to_nat n) (pending_consolidations t)). apply in_or_app. right. exact Hin. }
  intros _. apply K. unfold process_effective_balance_updates, effective_balance_step, process_slashings_reset, process_randao_mixes_reset, process_historical_update, process_participation_record_updates,
    process_participation_flag_updates, process_sync_committee_updates. kd.
Qed.
