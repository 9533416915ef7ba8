(** * The stake on record as slashed (proof file; no model definitions) *)
From Verif Require Import Base BaseLemmas Types Ctx Env Helpers HelpersAltair HelpersElectra Block Epoch Transition Upgrade StLemmas
  SpecCommon SpecShuffle SpecHelpers SpecElectra SpecOps SpecBlock SpecEpoch SpecFlow SpecAtt SpecQueues SpecFinality SpecSafety SpecAuthority SpecPayload SpecCulprits
  Frame HelperProofs HelperProofs2 OpsProofs BlockProofs SlotProofs SafetyProofs AuthorityProofs PayloadProofs.

(** ** Registries *)
Inductive later : list Validator -> list Validator -> Prop :=
| later_nil l : later [] l
| later_cons v v' l l' : v_effective_balance v' = v_effective_balance v -> (v_slashed v = true -> v_slashed v' = true) -> later l l' -> later (v :: l) (v' :: l').
Lemma later_refl l : later l l. Proof. induction l; constructor; auto. Qed.
Lemma later_trans a b c : later a b -> later b c -> later a c.
Proof. intros H. revert c. induction H as [|v v' l l' H1 H2 H IH]; intros c Hc; [constructor|]. inversion Hc; subst. constructor; [congruence|auto|auto]. Qed.
Lemma newly_add a b c : later a b -> later b c -> newly a c = newly a b + newly b c.
Proof.
  intros Ha Hb. revert a Ha. induction Hb as [l|v v' l l' H1 H2 H IH]; intros a Ha.
  - inversion Ha; subst. destruct l; reflexivity.
  - inversion Ha as [|o o' k k' A1 A2 A3]; subst; cbn [newly].
    + rewrite (IH [] (later_nil l)), H1. destruct (v_slashed v) eqn:Ev; [rewrite (H2 eq_refl); cbn [negb andb]; lia|]. rewrite andb_true_r. lia.
    + rewrite (IH k A3), H1. destruct (v_slashed o) eqn:Eo; [rewrite (A2 eq_refl); cbn [negb andb]; rewrite !andb_false_r; lia|].
      destruct (v_slashed v) eqn:Ev; [rewrite (H2 eq_refl); cbn [negb andb]; lia|]. cbn [negb andb]. rewrite andb_true_r. lia.
Qed.
(** nobody becomes slashed *)
Inductive alike : list Validator -> list Validator -> Prop :=
| alike_nil l : Forall (fun v => v_slashed v = false) l -> alike [] l
| alike_cons v v' l l' : v_effective_balance v' = v_effective_balance v -> v_slashed v' = v_slashed v -> alike l l' -> alike (v :: l) (v' :: l').
Lemma alike_refl l : alike l l. Proof. induction l; constructor; auto. Qed.
Lemma alike_later a b : alike a b -> later a b.
Proof. induction 1; constructor; auto. congruence. Qed.
Lemma alike_new a b : alike a b -> newly a b = 0.
Proof.
  induction 1 as [l Hl|v v' l l' H1 H2 H IH]; [|cbn [newly]; rewrite IH, H2; destruct (v_slashed v); reflexivity].
  induction Hl as [|v l Hv Hl IH]; [reflexivity|]. cbn [newly]. rewrite Hv, IH. reflexivity.
Qed.
Lemma alike_trans a b c : alike a b -> alike b c -> alike a c.
Proof.
  intros H. revert c. induction H as [l Hl|v v' l l' H1 H2 H IH]; intros c Hc.
  - constructor. induction Hc as [k Hk|v v' l l' H1 H2 H IH]; [exact Hk|]. inversion Hl; subst. constructor; [congruence|auto].
  - inversion Hc; subst. constructor; [congruence|congruence|auto].
Qed.
Lemma alike_upd l i v v' : nthN l i = Some v -> v_effective_balance v' = v_effective_balance v -> v_slashed v' = v_slashed v -> alike l (updN l i v').
Proof.
  revert i. induction l as [|x l IH]; intros i Hi H1 H2; cbn [nthN updN] in *; [discriminate|]. destruct (i =? 0).
  - injection Hi as ->. constructor; auto. apply alike_refl.
  - constructor; auto.
Qed.
Lemma alike_app l v : v_slashed v = false -> alike l (l ++ [v]).
Proof. intros Hv. induction l as [|x l IH]; [constructor; cbn [app]; auto|]. change ((x :: l) ++ [v]) with (x :: (l ++ [v])). constructor; auto. Qed.
Lemma alike_at a b i v : alike a b -> nthN a i = Some v -> exists v', nthN b i = Some v' /\ v_slashed v' = v_slashed v /\ v_effective_balance v' = v_effective_balance v.
Proof.
  intros H. revert i. induction H as [l Hl|x x' l l' H1 H2 H IH]; intros i Hi; cbn [nthN] in *; [discriminate|]. destruct (i =? 0); [injection Hi as ->; eauto|auto].
Qed.
(** one validator becomes slashed *)
Lemma newly_one l i v v' : nthN l i = Some v -> v_slashed v = false -> v_slashed v' = true -> v_effective_balance v' = v_effective_balance v ->
  later l (updN l i v') /\ newly l (updN l i v') = v_effective_balance v.
Proof.
  revert i. induction l as [|x l IH]; intros i Hi H1 H2 H3; cbn [nthN updN] in *; [discriminate|]. destruct (i =? 0).
  - injection Hi as ->. split; [constructor; auto using later_refl|]. cbn [newly]. rewrite H1, H2, H3, (alike_new _ _ (alike_refl l)). cbn [negb andb]. lia.
  - destruct (IH _ Hi H1 H2 H3) as [I1 I2]. split; [constructor; auto|]. cbn [newly]. rewrite I2, andb_negb_r. lia.
Qed.

(** ** What no operation but a slashing does *)
Record ck (s t : BeaconState) : Prop := mkCk { ck_a : alike (validators s) (validators t); ck_l : slashings t = slashings s; ck_s : slot t = slot s }.
Lemma ck_refl s : ck s s. Proof. constructor; [apply alike_refl|reflexivity..]. Qed.
Lemma ck_trans a b c : ck a b -> ck b c -> ck a c. Proof. intros [A1 A2 A3] [B1 B2 B3]; constructor; [eapply alike_trans; eauto|congruence..]. Qed.
Lemma ck_same s t : validators t = validators s -> slashings t = slashings s -> slot t = slot s -> ck s t.
Proof. intros H1 H2 H3. constructor; auto. rewrite H1. apply alike_refl. Qed.
Lemma ck_mod i g : (forall v, v_effective_balance (g v) = v_effective_balance v /\ v_slashed (g v) = v_slashed v) -> pres ck (mod_validator i g).
Proof.
  intros Hg s. unfold mod_validator, sbind, rd, md. destruct (idx (validators s) i) as [v| | |] eqn:Hv; cbn [snd]; try apply ck_refl. apply idx_ok in Hv. constructor; gs; auto.
  destruct (Hg v). eapply alike_upd; eauto.
Qed.
Lemma ck_add E pk wc a : forall g, pres ck (add_validator_to_registry E g pk wc a).
Proof.
  assert (G : forall g, g <> Electra -> pres ck (let* v := lift (get_validator_from_deposit E pk wc a) in
    md (fun s => set_balances (balances s ++ [a]) (set_validators (validators s ++ [v]) s)) ;;
    swhen (fork_le Altair g)
      (md (fun s => set_inactivity_scores (inactivity_scores s ++ [0])
             (set_current_epoch_participation (current_epoch_participation s ++ [0])
             (set_previous_epoch_participation (previous_epoch_participation s ++ [0]) s)))))).
  { intros g _ s. unfold sbind, lift. destruct (get_validator_from_deposit E pk wc a) as [v| | |] eqn:Hv; cbn [snd]; try apply ck_refl.
    assert (Hs : v_slashed v = false). { unfold get_validator_from_deposit in Hv. apply rbind_ok_inv in Hv as (m & _ & Hv). apply rbind_ok_inv in Hv as (r & _ & Hv). apply Ok_inj in Hv. subst v. reflexivity. }
    unfold md, swhen, sret. destruct (fork_le Altair g); cbn [snd]; (constructor; [gs; apply alike_app; exact Hs|reflexivity|reflexivity]). }
  intros g. unfold add_validator_to_registry. destruct g; try (apply G; discriminate). apply pres_md. intros s. constructor; [|reflexivity|reflexivity]. gs. apply alike_app. reflexivity.
Qed.
Create HintDb ckdb.
Global Hint Resolve ck_add : ckdb.
Ltac ck1 :=
  match goal with
  | |- forall _, _ => intro
  | |- pres ck (sbind _ _) => apply (pres_bind ck ck_trans)
  | |- pres ck (rd _) => apply (pres_rd ck ck_refl)
  | |- pres ck (lift _) => apply (pres_lift ck ck_refl)
  | |- pres ck (sret _) => apply (pres_ret ck ck_refl)
  | |- pres ck (swhen _ _) => apply (pres_when ck ck_refl)
  | |- pres ck (sfor _ _) => apply (pres_for ck ck_refl ck_trans)
  | |- pres ck (sfold _ _ _) => apply (pres_fold ck ck_refl ck_trans)
  | |- pres ck (match ?x with _ => _ end) => destruct x
  | |- pres ck (md _) => apply pres_md; intro; (apply ck_same; reflexivity)
  | |- pres ck (md _) => apply pres_md; intro; cbv beta; match goal with |- ck _ (if ?c then _ else _) => destruct c; apply ck_same; reflexivity end
  | |- pres ck (mod_validator _ _) => apply ck_mod; intro; split; reflexivity
  | |- pres ck _ => solve [eauto with ckdb]
  end.
Ltac ckt := repeat ck1.
Section Hk.
Variables (E : Env) (f : Fork).
Lemma ck_inc i d : pres ck (increase_balance E i d). Proof. unfold increase_balance. ckt. Qed.
Lemma ck_dec i d : pres ck (decrease_balance E i d). Proof. unfold decrease_balance. ckt. Qed.
Hint Resolve ck_inc ck_dec : ckdb.
Lemma ck_churn b : pres ck (compute_exit_epoch_and_update_churn E b). Proof. unfold compute_exit_epoch_and_update_churn. ckt. Qed.
Lemma ck_cchurn b : pres ck (compute_consolidation_epoch_and_update_churn E b). Proof. unfold compute_consolidation_epoch_and_update_churn. ckt. Qed.
Hint Resolve ck_churn ck_cchurn : ckdb.
Lemma ck_exit0 i : pres ck (initiate_validator_exit E i). Proof. unfold initiate_validator_exit. ckt. Qed.
Lemma ck_exit1 i : pres ck (initiate_validator_exit_electra E i). Proof. unfold initiate_validator_exit_electra. ckt. Qed.
Hint Resolve ck_exit0 ck_exit1 : ckdb.
Lemma ck_exit i : pres ck (initiate_exit E f i). Proof. unfold initiate_exit. ckt. Qed.
Hint Resolve ck_exit : ckdb.
Lemma ck_flag c fl i n fw : pres ck (attestation_flag_step E c fl i n fw).
Proof. unfold attestation_flag_step. ckt; apply pres_md; intro; destruct c; apply ck_same; reflexivity. Qed.
Hint Resolve ck_flag : ckdb.
Lemma ck_att a : pres ck (process_attestation E f a).
Proof. unfold process_attestation, process_attestation_phase0, process_attestation_altair. ckt. Qed.
Lemma ck_excess i : pres ck (queue_excess_active_balance E i). Proof. unfold queue_excess_active_balance. ckt. Qed.
Hint Resolve ck_add ck_excess : ckdb.
Lemma ck_switch i : pres ck (switch_to_compounding_validator E i). Proof. unfold switch_to_compounding_validator. ckt. Qed.
Hint Resolve ck_switch : ckdb.
Lemma ck_apply pk wc a sg : pres ck (apply_deposit E f pk wc a sg).
Proof. unfold apply_deposit, apply_deposit_phase0, apply_deposit_electra. ckt. Qed.
Lemma ck_apply_el pk wc a sg : pres ck (apply_deposit_electra E pk wc a sg).
Proof. unfold apply_deposit_electra. ckt. Qed.
Hint Resolve ck_apply ck_apply_el : ckdb.
Lemma ck_deposit d : pres ck (process_deposit E f d). Proof. unfold process_deposit. ckt. Qed.
Lemma ck_receipt d : pres ck (process_deposit_receipt E d). Proof. unfold process_deposit_receipt. ckt. Qed.
Lemma ck_vexit op : pres ck (process_voluntary_exit E f op). Proof. unfold process_voluntary_exit. ckt. Qed.
Lemma ck_eth1 b : pres ck (process_eth1_data E b). Proof. unfold process_eth1_data. ckt. Qed.
Lemma ck_sync sa : pres ck (process_sync_aggregate E sa). Proof. unfold process_sync_aggregate, sync_step. ckt. Qed.
Lemma ck_wd p : pres ck (process_withdrawals E f p). Proof. unfold process_withdrawals. ckt. Qed.
Lemma ck_bls op : pres ck (process_bls_to_execution_change E op). Proof. unfold process_bls_to_execution_change. ckt. Qed.
Lemma ck_wr op : pres ck (process_execution_layer_withdrawal_request E op). Proof. unfold process_execution_layer_withdrawal_request. ckt. Qed.
Lemma ck_cons op : pres ck (process_consolidation E op). Proof. unfold process_consolidation. ckt. Qed.
Hint Resolve ck_att ck_deposit ck_receipt ck_vexit ck_eth1 ck_sync ck_wd ck_bls ck_wr ck_cons : ckdb.
End Hk.

Global Hint Resolve ck_inc ck_dec ck_exit ck_switch ck_excess ck_att ck_deposit ck_receipt ck_vexit ck_eth1 ck_sync ck_wd ck_bls ck_wr ck_cons : ckdb.

(** ** Slashings: the record grows by the stake of those that become slashed, unless the code panics *)
Lemma credit_none i l : credit i 0 l = l.
Proof. unfold credit. destruct (nthN l i) eqn:H; [rewrite N.add_0_r; apply updN_id; exact H|reflexivity]. Qed.
Lemma credit_add i a b l : credit i b (credit i a l) = credit i (a + b) l.
Proof.
  unfold credit. destruct (nthN l i) as [x|] eqn:H; [|rewrite H; reflexivity]. rewrite nthN_updN_eq by (eapply nthN_some; exact H). rewrite updN_updN. f_equal. lia.
Qed.
Section Sk.
Variables (E : Env) (f : Fork).
Hypothesis Hc : ctx_sane E.
Hypothesis Hk : chk E = true.
Record sk (s t : BeaconState) : Prop := mkSk { sk_l : later (validators s) (validators t);
  sk_r : slashings t = credit (epoch_of E s mod EPOCHS_PER_SLASHINGS_VECTOR E) (newly (validators s) (validators t)) (slashings s); sk_s : slot t = slot s }.
Lemma ck_sk s t : ck s t -> sk s t.
Proof. intros [A B C]. constructor; [apply alike_later; exact A| |exact C]. rewrite (alike_new _ _ A), credit_none. exact B. Qed.
Lemma sk_refl s : sk s s. Proof. apply ck_sk, ck_refl. Qed.
Lemma sk_trans a b c : sk a b -> sk b c -> sk a c.
Proof.
  intros [A1 A2 A3] [B1 B2 B3]. constructor; [eapply later_trans; eauto| |congruence]. rewrite B2, A2, (newly_add _ _ _ A1 B1). assert (Ee : epoch_of E b = epoch_of E a) by (unfold epoch_of; rewrite A3; reflexivity).
  rewrite Ee. apply credit_add.
Qed.
Definition skp {A} (m : St BeaconState A) : Prop := forall s, fst (m s) <> Panic -> sk s (snd (m s)).
Lemma skp_ck {A} (m : St BeaconState A) : pres ck m -> skp m. Proof. intros H s _. apply ck_sk, H. Qed.
Lemma skp_bind {A B} (m : St BeaconState A) (k : A -> St BeaconState B) : skp m -> (forall a, skp (k a)) -> skp (sbind m k).
Proof.
  intros Hm Hn s. unfold sbind. specialize (Hm s). destruct (m s) as [[a|e| |] t]; cbn [fst snd] in *; try (intros _; apply Hm; discriminate); [|congruence].
  intros Hr. eapply sk_trans; [apply Hm; discriminate|]. apply Hn. exact Hr.
Qed.
Lemma skp_for {A} (l : list A) body : (forall x, skp (body x)) -> skp (sfor l body).
Proof.
  intros H. induction l as [|x l IH]; [apply skp_ck, (pres_ret ck ck_refl)|]. intros s. rewrite sfor_cons. revert s. apply skp_bind; [apply H|intros _; exact IH].
Qed.
Lemma skp_fold {A B} (l : list A) (body : B -> A -> St BeaconState B) : (forall b x, skp (body b x)) -> forall b, skp (sfold body l b).
Proof.
  intros H. induction l as [|x l IH]; intros b; cbn [sfold]; [apply skp_ck, (pres_ret ck ck_refl)|]. apply skp_bind; [apply H|exact IH].
Qed.

Lemma add_cases x y : (exists z, add E x y = Ok z /\ z = x + y) \/ add E x y = Panic.
Proof. destruct (add E x y) as [z|e| |] eqn:H; [left; exists z; split; [reflexivity|apply (add_exact E _ _ _ Hk) in H; exact H]|..|right; reflexivity|]; exfalso; revert H; unfold add, uadd; rewrite Hk; destruct (_ <? _); discriminate. Qed.
Definition slash_tail i w (p : N) : St BeaconState unit :=
    let* penalty := lift (udiv p (slashing_penalty_quotient E f)) in
    decrease_balance E i penalty ;;
    let* proposer := rd (get_beacon_proposer_index E) in
    let wb := match w with Some w => w | None => proposer end in
    let* wr := lift (udiv p (whistleblower_quotient E f)) in
    let* pr := lift (slashing_proposer_reward E f wr) in
    increase_balance E proposer pr ;;
    let* rest := lift (sub E wr pr) in
    increase_balance E wb rest.
Lemma ck_tail i w p : pres ck (slash_tail i w p). Proof. unfold slash_tail. ckt; cbv zeta; ckt. Qed.
Lemma idx_cases {A} (l : list A) j : (exists x, idx l j = Ok x /\ nthN l j = Some x) \/ idx l j = Panic.
Proof. unfold idx, expect. destruct (nthN l j); eauto. Qed.
Lemma sk_slash i w s : (exists v, nthN (validators s) i = Some v /\ v_slashed v = false) -> fst (slash_validator E f i w s) <> Panic -> sk s (snd (slash_validator E f i w s)).
Proof.
  intros (v & Hv & Hu). destruct (slash_validator E f i w s) as [r t] eqn:H. cbn [fst snd]. intros Hr. unfold slash_validator in H. set (V := EPOCHS_PER_SLASHINGS_VECTOR E) in *.
  unfold sbind at 1, rd at 1 in H. rewrite (current_epoch_ok E Hc) in H. unfold sbind at 1 in H. pose proof (ck_exit E f i s) as K.
  destruct (initiate_exit E f i s) as [[[]|e| |] s1]; cbn [fst snd] in *; try (injection H as <- <-; apply ck_sk; exact K).
  destruct K as [K1 K2 K3]. destruct (alike_at _ _ _ _ K1 Hv) as (v1 & H1 & U1 & E1). rewrite Hu in U1.
  unfold sbind at 1 in H. unfold mod_validator at 1 in H. unfold sbind at 1, rd at 1 in H. rewrite (proj2 (idx_ok _ _ _) H1) in H. unfold md at 1 in H. set (s2 := set_validators _ s1) in H.
  unfold sbind at 1, lift at 1 in H. destruct (add_cases (epoch_of E s) V) as [(lim & X & _)|X]; rewrite X in H; [|injection H as <- <-; congruence]. clear X.
  assert (I2 : nthN (validators s2) i = Some (set_v_slashed true v1)) by (unfold s2; gs; apply nthN_updN_eq; eapply nthN_some; exact H1).
  unfold sbind at 1 in H. unfold mod_validator at 1 in H. unfold sbind at 1, rd at 1 in H. rewrite (proj2 (idx_ok _ _ _) I2) in H. unfold md at 1 in H. set (v3 := set_v_withdrawable_epoch _ _) in H. set (s3 := set_validators _ s2) in H.
  assert (I3 : nthN (validators s3) i = Some v3) by (unfold s3; gs; apply nthN_updN_eq; eapply nthN_some; exact I2).
  unfold sbind at 1, lift at 1 in H. unfold umod in H. destruct (V =? 0) eqn:HV; [injection H as <- <-; congruence|]. unfold sbind at 1, rd at 1 in H. rewrite (proj2 (idx_ok _ _ _) I3) in H.
  unfold sbind at 1, rd at 1 in H. destruct (idx_cases (slashings s3) (epoch_of E s mod V)) as [(a & X & Ha)|X]; rewrite X in H; cbn [rbind] in H; [|injection H as <- <-; congruence]. clear X.
  destruct (add_cases a (v_effective_balance v3)) as [(x & X & Hx)|X]; rewrite X in H; [|injection H as <- <-; congruence]. unfold sbind at 1, md at 1 in H. set (s4 := set_slashings _ s3) in H.
  assert (P : ck s4 t). { pose proof (ck_tail i w (v_effective_balance v3) s4) as P. unfold slash_tail in P. cbv zeta in *. rewrite H in P. exact P. }
  eapply sk_trans; [|apply ck_sk; exact P]. clear P H.
  assert (L : later (validators s1) (validators s4) /\ newly (validators s1) (validators s4) = v_effective_balance v1).
  { unfold s4, s3, s2. gs. rewrite updN_updN. apply newly_one; auto. }
  destruct L as [L1 L2]. apply (sk_trans _ s1); [apply ck_sk; constructor; assumption|]. constructor; [exact L1| |unfold s4, s3, s2; gs; reflexivity].
  rewrite L2. assert (Ee : epoch_of E s1 = epoch_of E s) by (unfold epoch_of; rewrite K3; reflexivity). rewrite Ee. fold V. unfold s4. gs.
  assert (S3 : slashings s3 = slashings s1) by (unfold s3, s2; gs; reflexivity). rewrite S3 in *. unfold credit. rewrite Ha, Hx. reflexivity.
Qed.
Lemma slashable_unslashed v e : is_slashable_validator v e = true -> v_slashed v = false.
Proof. unfold is_slashable_validator. destruct (v_slashed v); [discriminate|reflexivity]. Qed.
Lemma sk_pslash op : skp (process_proposer_slashing E f op).
Proof.
  intros s. unfold process_proposer_slashing, sbind, rd. destruct (proposer_slashing_checks E op s) as [i| | |] eqn:H; cbn [fst snd]; try (intros _; apply sk_refl). apply sk_slash.
  unfold proposer_slashing_checks in H. apply rbind_ok_inv in H as ([] & _ & H). apply rbind_ok_inv in H as ([] & _ & H). apply rbind_ok_inv in H as ([] & _ & H).
  apply rbind_ok_inv in H as (v & Hv & H). apply ok_or_ok in Hv. apply rbind_ok_inv in H as (cur & _ & H). apply rbind_ok_inv in H as ([] & Hs & H). apply require_ok in Hs.
  apply rbind_ok_inv in H as (e & _ & H). apply rbind_ok_inv in H as (d & _ & H). apply rbind_ok_inv in H as ([] & _ & H). apply rbind_ok_inv in H as ([] & _ & H). apply Ok_inj in H. subst i.
  exists v. split; [exact Hv|]. apply slashable_unslashed in Hs. exact Hs.
Qed.
Lemma sk_aslash op : skp (process_attester_slashing E f op).
Proof.
  unfold process_attester_slashing. apply skp_bind; [apply skp_ck; ckt|]. intros l. apply skp_bind; [apply skp_ck; ckt|]. intros cur. apply skp_bind; [|intros b; apply skp_ck; ckt].
  apply skp_fold. intros b i s. unfold sbind, rd. destruct (idx_cases (validators s) i) as [(v & X & Hv)|X]; rewrite X; [|cbn [fst]; congruence].
  destruct (is_slashable_validator v cur) eqn:Hs; [|cbn [snd fst sret]; intros _; apply sk_refl]. apply slashable_unslashed in Hs.
  pose proof (sk_slash i None s (ex_intro _ v (conj Hv Hs))) as G. destruct (slash_validator E f i None s) as [[[]| | |] t]; cbn [fst snd sret] in *; try (intros _; apply G; discriminate). congruence.
Qed.
Lemma skp_when c (m : St BeaconState unit) : skp m -> skp (swhen c m).
Proof. intros H. destruct c; [exact H|]. apply skp_ck, (pres_ret ck ck_refl). Qed.
Lemma sk_ops b : skp (process_operations E f b).
Proof.
  unfold process_operations. apply skp_bind; [apply skp_ck; ckt|]. intros _. apply skp_bind; [apply skp_for, sk_pslash|]. intros _. apply skp_bind; [apply skp_for, sk_aslash|]. intros _.
  apply skp_ck. ckt.
Qed.
Lemma sk_block b : skp (process_block E f b).
Proof.
  unfold process_block. fold (payload_part E f b). apply skp_bind; [apply skp_ck; unfold process_block_header; ckt|]. intros _.
  apply skp_bind; [apply skp_ck; unfold payload_part, process_execution_payload; ckt|]. intros _. apply skp_bind; [apply skp_ck; unfold process_randao; ckt|]. intros _.
  apply skp_bind; [apply skp_ck; ckt|]. intros _. apply skp_bind; [apply sk_ops|]. intros _. apply skp_when, skp_ck. ckt.
Qed.
End Sk.

(** ** Epochs and upgrades slash nobody *)
Record pk (s t : BeaconState) : Prop := mkPk { pk_a : map v_slashed (validators t) = map v_slashed (validators s); pk_l : slashings t = slashings s; pk_s : slot t = slot s }.
Lemma pk_refl s : pk s s. Proof. constructor; reflexivity. Qed.
Lemma pk_trans a b c : pk a b -> pk b c -> pk a c. Proof. intros [A1 A2 A3] [B1 B2 B3]; constructor; congruence. Qed.
Lemma pk_same s t : validators t = validators s -> slashings t = slashings s -> slot t = slot s -> pk s t.
Proof. intros H1 H2 H3. constructor; auto. rewrite H1. reflexivity. Qed.
Lemma newly_flags a b : map v_slashed b = map v_slashed a -> newly a b = 0.
Proof.
  revert a. induction b as [|v b IH]; intros [|o a] H; try discriminate; [reflexivity|]. cbn [map] in H. injection H as H1 H2. cbn [newly]. rewrite (IH a H2), H1, andb_negb_r. reflexivity.
Qed.
Lemma pk_mod i g : (forall v, v_slashed (g v) = v_slashed v) -> pres pk (mod_validator i g).
Proof.
  intros Hg s. unfold mod_validator, sbind, rd, md. destruct (idx (validators s) i) as [v| | |] eqn:Hv; cbn [snd]; try apply pk_refl. apply idx_ok in Hv. constructor; gs; auto.
  rewrite map_updN, Hg. apply updN_id. rewrite nthN_map, Hv. reflexivity.
Qed.
Create HintDb pkdb.
Ltac pk1 :=
  match goal with
  | |- forall _, _ => intro
  | |- pres pk (sbind _ _) => apply (pres_bind pk pk_trans)
  | |- pres pk (rd _) => apply (pres_rd pk pk_refl)
  | |- pres pk (lift _) => apply (pres_lift pk pk_refl)
  | |- pres pk (sret _) => apply (pres_ret pk pk_refl)
  | |- pres pk (swhen _ _) => apply (pres_when pk pk_refl)
  | |- pres pk (sfor _ _) => apply (pres_for pk pk_refl pk_trans)
  | |- pres pk (sfold _ _ _) => apply (pres_fold pk pk_refl pk_trans)
  | |- pres pk (match ?x with _ => _ end) => destruct x
  | |- pres pk (md _) => apply pres_md; intro; (apply pk_same; reflexivity)
  | |- pres pk (md _) => apply pres_md; intro; cbv beta; match goal with |- pk _ (if ?c then _ else _) => destruct c; apply pk_same; reflexivity end
  | |- pres pk (mod_validator _ _) => apply pk_mod; intro; reflexivity
  | |- pres pk _ => solve [eauto with pkdb]
  end.
Ltac pkt := repeat pk1.
Section Epoch.
Variables (E : Env) (f : Fork).
Lemma pk_inc i d : pres pk (increase_balance E i d). Proof. unfold increase_balance. pkt. Qed.
Lemma pk_dec i d : pres pk (decrease_balance E i d). Proof. unfold decrease_balance. pkt. Qed.
Hint Resolve pk_inc pk_dec : pkdb.
Lemma pk_churn b : pres pk (compute_exit_epoch_and_update_churn E b). Proof. unfold compute_exit_epoch_and_update_churn. pkt. Qed.
Hint Resolve pk_churn : pkdb.
Lemma pk_exit i : pres pk (initiate_exit E f i). Proof. unfold initiate_exit, initiate_validator_exit, initiate_validator_exit_electra. pkt. Qed.
Lemma pk_excess i : pres pk (queue_excess_active_balance E i). Proof. unfold queue_excess_active_balance. pkt. Qed.
Hint Resolve pk_exit pk_excess : pkdb.
Lemma pk_switch i : pres pk (switch_to_compounding_validator E i). Proof. unfold switch_to_compounding_validator. pkt. Qed.
Lemma pk_entire i : pres pk (queue_entire_balance_and_reset_validator i). Proof. unfold queue_entire_balance_and_reset_validator. pkt. Qed.
Hint Resolve pk_switch pk_entire : pkdb.
Lemma pk_justify : pres pk (process_justification_and_finalization E f).
Proof. unfold process_justification_and_finalization, weigh_justification_and_finalization, justify, finalize_if. pkt. Qed.
Lemma pk_inact : pres pk (process_inactivity_updates E). Proof. unfold process_inactivity_updates, inactivity_update_step. pkt. Qed.
Lemma pk_rewards : pres pk (process_rewards_and_penalties E f). Proof. unfold process_rewards_and_penalties, apply_deltas. pkt. Qed.
Lemma pk_registry : pres pk (process_registry_updates E f). Proof. unfold process_registry_updates, registry_step. pkt. Qed.
Lemma pk_slashings : pres pk (process_slashings E f). Proof. unfold process_slashings, slashings_step. pkt. Qed.
Lemma pk_eth1r : pres pk (process_eth1_data_reset E). Proof. unfold process_eth1_data_reset. pkt. Qed.
Lemma pk_deploop l : forall a p c, pres pk (pending_deposits_loop E l a p c).
Proof. induction l as [|d l IH]; intros a p c; cbn [pending_deposits_loop]; pkt. Qed.
Lemma pk_consloop l : forall n, pres pk (pending_consolidations_loop E l n).
Proof. induction l as [|d l IH]; intros n; cbn [pending_consolidations_loop]; pkt. Qed.
Hint Resolve pk_deploop pk_consloop : pkdb.
Lemma pk_deps : pres pk (process_pending_balance_deposits E). Proof. unfold process_pending_balance_deposits. pkt. Qed.
Lemma pk_conss : pres pk (process_pending_consolidations E). Proof. unfold process_pending_consolidations. pkt. Qed.
Lemma pk_eff : pres pk (process_effective_balance_updates E f). Proof. unfold process_effective_balance_updates, effective_balance_step. pkt. Qed.
Lemma pk_hist : pres pk (process_historical_update E f). Proof. unfold process_historical_update. pkt. Qed.
Lemma pk_part : pres pk (match f with Phase0 => process_participation_record_updates | _ => process_participation_flag_updates ;; process_sync_committee_updates E end).
Proof. unfold process_participation_record_updates, process_participation_flag_updates, process_sync_committee_updates. pkt. Qed.


Lemma pk_randaor : pres pk (process_randao_mixes_reset E). Proof. unfold process_randao_mixes_reset. pkt. Qed.
Lemma slr_does s t : ctx_sane E -> chk E = true -> process_slashings_reset E s = (Ok tt, t) ->
  t = set_slashings (updN (slashings s) ((epoch_of E s + 1) mod EPOCHS_PER_SLASHINGS_VECTOR E) 0) s.
Proof.
  intros Hc Hk H. unfold process_slashings_reset in H. apply sbind_ok_inv in H as (i & z & H1 & H). apply inv_rd in H1 as [H1 ->]. apply rbind_ok_inv in H1 as (ne & Hn & H1).
  unfold next_epoch in Hn. rewrite (current_epoch_ok E Hc) in Hn. cbn [rbind] in Hn. apply (add_exact E _ _ _ Hk) in Hn. subst ne. unfold umod in H1. destruct (_ =? 0) in H1; [discriminate|]. apply Ok_inj in H1. subst i.
  apply sbind_ok_inv in H as ([] & z & H1 & H). apply inv_rd in H1 as [_ ->]. unfold md in H. injection H as <-. reflexivity.
Qed.
Lemma slashed_epoch s t : ctx_sane E -> chk E = true -> process_epoch E f s = (Ok tt, t) ->
  map v_slashed (validators t) = map v_slashed (validators s) /\ slot t = slot s /\ slashings t = updN (slashings s) ((epoch_of E s + 1) mod EPOCHS_PER_SLASHINGS_VECTOR E) 0.
Proof.
  intros Hc Hk H. unfold process_epoch in H.
  assert (G : forall a b (m : St BeaconState unit), pres pk m -> m a = (Ok tt, b) -> pk a b) by (intros a b m P Q; pose proof (P a) as R; rewrite Q in R; exact R).
  apply sbind_ok_inv in H as ([] & s1 & H1 & H). apply G in H1; [|apply pk_justify]. apply sbind_ok_inv in H as ([] & s2 & H2 & H). apply G in H2; [|apply pres_when; [exact pk_refl|apply pk_inact]].
  apply sbind_ok_inv in H as ([] & s3 & H3 & H). apply G in H3; [|apply pk_rewards]. apply sbind_ok_inv in H as ([] & s4 & H4 & H). apply G in H4; [|apply pk_registry].
  apply sbind_ok_inv in H as ([] & s5 & H5 & H). apply G in H5; [|apply pk_slashings]. apply sbind_ok_inv in H as ([] & s6 & H6 & H). apply G in H6; [|apply pk_eth1r].
  apply sbind_ok_inv in H as ([] & s7 & H7 & H). apply G in H7; [|apply pres_when; [exact pk_refl|apply (pres_bind pk pk_trans); [apply pk_deps|intros _; apply pk_conss]]].
  apply sbind_ok_inv in H as ([] & s8 & H8 & H). apply G in H8; [|apply pk_eff]. apply sbind_ok_inv in H as ([] & s9 & H9 & H).
  apply sbind_ok_inv in H as ([] & u & H10 & H). apply G in H10; [|apply pk_randaor]. apply sbind_ok_inv in H as ([] & s11 & H11 & H). apply G in H11; [|apply pk_hist]. apply G in H; [|apply pk_part].
  assert (K : pk s s8) by exact (pk_trans _ _ _ H1 (pk_trans _ _ _ H2 (pk_trans _ _ _ H3 (pk_trans _ _ _ H4 (pk_trans _ _ _ H5 (pk_trans _ _ _ H6 (pk_trans _ _ _ H7 H8))))))).
  pose proof (pk_trans _ _ _ H10 (pk_trans _ _ _ H11 H)) as L. destruct K as [K1 K2 K3], L as [L1 L2 L3]. apply (slr_does _ _ Hc Hk) in H9. subst s9. revert L1 L2 L3. gs. intros L1 L2 L3.
  assert (Ee : epoch_of E s8 = epoch_of E s) by (unfold epoch_of; f_equal; exact K3). rewrite Ee, K2 in L2. split; [congruence|]. split; [congruence|exact L2].
Qed.
Lemma slashed_slot s t : ctx_sane E -> chk E = true -> slot s + 1 < 2 ^ 64 -> process_slots E f (slot s + 1) s = (Ok tt, t) ->
  slot t = slot s + 1 /\ map v_slashed (validators t) = map v_slashed (validators s)
  /\ slashings t = (if (slot s + 1) mod SLOTS_PER_EPOCH E =? 0 then updN (slashings s) ((epoch_of E s + 1) mod EPOCHS_PER_SLASHINGS_VECTOR E) 0 else slashings s).
Proof.
  intros Hc Hk Hb H. assert (Hb' : slot s + 1 < U64) by (rewrite U64_val; pows; lia).
  assert (Ha : advance_slot E f s = (Ok tt, t)).
  { rewrite process_slots_loop in H by lia. replace (N.to_nat (slot s + 1 - slot s)) with 1%nat in H by lia.
    rewrite loop_step in H by lia. apply sbind_ok_inv in H as ([] & m & H1 & H). rewrite loop_done in H; [injection H as <-; exact H1|].
    destruct (advance_inv E Hc f s m Hb' H1) as (s1 & s2 & _ & _ & _ & S2 & ->). gs. lia. }
  destruct (advance_inv E Hc f s t Hb' Ha) as (s1 & s2 & A1 & A2 & A3 & A4 & ->). gs. rewrite A4.
  assert (Q : pk s s1) by (assert (P0 : pres pk (process_slot E f)) by (unfold process_slot; pkt); specialize (P0 s); rewrite A1 in P0; exact P0).
  destruct Q as [Q1 Q2 Q3]. split; [reflexivity|]. destruct (N.eqb_spec ((slot s + 1) mod SLOTS_PER_EPOCH E) 0) as [Hm|Hm].
  - destruct (slashed_epoch s1 s2 Hc Hk A3) as (P1 & P2 & P3). split; [congruence|]. rewrite P3, Q2. assert (Ee : epoch_of E s1 = epoch_of E s) by (unfold epoch_of; f_equal; exact A2). rewrite Ee. reflexivity.
  - subst s2. auto.
Qed.
End Epoch.
Lemma slashed_upgrade (E : Env) f g s t : chain_call E (f, s) (g, t) -> f <> g -> pk s t.
Proof.
  intros H Hne. inversion H; subst; try congruence.
  - match goal with H : upgrade_to_altair E s = Ok t |- _ => rename H into Hu end. unfold upgrade_to_altair in Hu. rinv Hu. subst t.
    match goal with H : translate_participation _ _ _ = Ok _ |- _ => unfold translate_participation in H; rinv H; subst end. unfold altair_base. constructor; gs; reflexivity.
  - match goal with H : upgrade_to_bellatrix E s = Ok t |- _ => unfold upgrade_to_bellatrix in H; rinv H; subst end. constructor; reflexivity.
  - match goal with H : upgrade_to_capella E s = Ok t |- _ => unfold upgrade_to_capella in H; rinv H; subst end. constructor; reflexivity.
  - match goal with H : upgrade_to_deneb E s = Ok t |- _ => unfold upgrade_to_deneb in H; rinv H; subst end. constructor; reflexivity.
  - match goal with H : upgrade_to_electra E s = Ok t |- _ => rename H into Hu end. unfold upgrade_to_electra in Hu. rinv Hu.
    match type of Hu with context [electra_finish E ?b] => assert (K : pk b (snd (electra_finish E b))) end.
    { generalize (electra_base E x x0 x1 s). change (pres pk (electra_finish E)). unfold electra_finish. pkt; first [apply pk_entire|apply pk_excess]. }
    destruct (electra_finish E _) as [r post]. cbn [snd] in K. rinv Hu. subst post. refine (pk_trans _ _ _ _ K). unfold electra_base. constructor; gs; reflexivity.
Qed.
