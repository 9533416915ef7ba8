(** * What lowers a balance in a block (proof file; no model definitions) *)
From Verif Require Import Base BaseLemmas Types Ctx Env Helpers HelpersAltair HelpersElectra Block Epoch Transition Upgrade StLemmas
  SpecCommon SpecHelpers SpecElectra SpecOps SpecBlock SpecEpoch SpecFlow SpecAtt SpecQueues SpecFinality SpecSafety SpecEvidence SpecAuthority SpecDebit
  Frame HelperProofs HelperProofs2 OpsProofs SlashProofs BlockProofs FlowProofs PropsEvidence AuthorityProofs.

(** what the header step keeps *)
Record settled (s t : BeaconState) : Prop := mkSettled {
  se_v : validators t = validators s; se_b : balances t = balances s; se_s : slot t = slot s; se_c : current_sync_committee t = current_sync_committee s;
  se_p : pending_partial_withdrawals t = pending_partial_withdrawals s }.
Lemma settled_refl s : settled s s. Proof. constructor; reflexivity. Qed.
Lemma settled_trans a b c : settled a b -> settled b c -> settled a c.
Proof. intros [A1 A2 A3 A4 A5] [B1 B2 B3 B4 B5]. constructor; congruence. Qed.
Ltac st1 :=
  match goal with
  | |- forall _, _ => intro
  | |- pres settled (sbind _ _) => apply pres_bind; [exact settled_trans| |]
  | |- pres settled (rd _) => apply pres_rd; exact settled_refl
  | |- pres settled (lift _) => apply pres_lift; exact settled_refl
  | |- pres settled (sret _) => apply pres_ret; exact settled_refl
  | |- pres settled (swhen _ _) => apply pres_when; [exact settled_refl|]
  | |- pres settled (match ?x with _ => _ end) => destruct x
  | |- pres settled (let _ := _ in _) => cbv zeta
  | |- pres settled (md _) => apply pres_md; intro; constructor; gs; reflexivity
  end.

Section Blk.
Variables (E : Env) (f : Fork) (s0 : BeaconState) (b : BeaconBlock).
Hypothesis Hc : ctx_sane E.
Hypothesis Hsl : slot s0 < 2 ^ 64 - 1.
Hypothesis Hk : chk E = true.
Notation body := (bk_body b).
Notation due := (debit_due E f s0 b).

Definition bal (u : BeaconState) : Prop :=
  (forall i v x, nthN (validators s0) i = Some v -> nthN (balances s0) i = Some x -> exists y, nthN (balances u) i = Some y /\ (x <= y \/ due i v))
  /\ current_sync_committee u = current_sync_committee s0.
Definition hb {A} (m : St BeaconState A) : Prop := forall u, bal u -> bal (snd (m u)).
Lemma hb_bind {A B} (m : St BeaconState A) (k : A -> St BeaconState B) : hb m -> (forall a, hb (k a)) -> hb (sbind m k).
Proof. intros H1 H2 u Hu. specialize (H1 u Hu). unfold sbind. destruct (m u) as [[a| | |] t]; cbn [snd] in *; auto. apply H2. exact H1. Qed.
Lemma hb_rd {A} (g : BeaconState -> res A) : hb (rd g). Proof. intros u Hu. exact Hu. Qed.
Lemma hb_lift {A} (r : res A) : hb (lift r). Proof. intros u Hu. exact Hu. Qed.
Lemma hb_ret {A} (a : A) : hb (sret a). Proof. intros u Hu. exact Hu. Qed.
Lemma hb_when c m : (c = true -> hb m) -> hb (swhen c m).
Proof. intros H. destruct c; [apply H; reflexivity|]. intros u Hu. exact Hu. Qed.
Lemma hb_for {A} (l : list A) (k : A -> St BeaconState unit) : (forall x, In x l -> hb (k x)) -> hb (sfor l k).
Proof. induction l as [|x l IH]; intros H; cbn [sfor]; [apply hb_ret|]. apply hb_bind; [apply H; left; reflexivity|]. intros _. apply IH. intros y Hy. apply H. right. exact Hy. Qed.
Lemma hb_fold {A B} (k : B -> A -> St BeaconState B) (l : list A) : (forall c x, In x l -> hb (k c x)) -> forall c, hb (sfold k l c).
Proof. induction l as [|x l IH]; intros H c; cbn [sfold]; [apply hb_ret|]. apply hb_bind; [apply H; left; reflexivity|]. intros c'. apply IH. intros d y Hy. apply H. right. exact Hy. Qed.
Lemma hb_md g : (forall u, balances (g u) = balances u /\ current_sync_committee (g u) = current_sync_committee u) -> hb (md g).
Proof. intros H u [H1 H2]. destruct (H u) as [A1 A2]. cbn [md snd]. split; [rewrite A1; exact H1|congruence]. Qed.
Lemma hb_mod i g : hb (mod_validator i g).
Proof. unfold mod_validator. apply hb_bind; [apply hb_rd|]. intros v. apply hb_md. intros u. gs. auto. Qed.
Lemma hb_upd (i y : N) u : bal u -> i < lenN (balances u) -> ((forall x, nthN (balances u) i = Some x -> x <= y) \/ forall v, nthN (validators s0) i = Some v -> due i v) ->
  bal (set_balances (updN (balances u) i y) u).
Proof.
  intros [H1 H2] Hi Hy. split; [|gs; exact H2]. gs. intros j v x Hv Hx. destruct (H1 j v x Hv Hx) as (z & A1 & A2). destruct (N.eq_dec j i) as [->|Hn].
  - exists y. rewrite nthN_updN_eq by exact Hi. split; [reflexivity|]. destruct Hy as [Hy|Hy]; [|right; apply Hy; exact Hv]. destruct A2 as [A2|A2]; [left|right; exact A2]. specialize (Hy z A1). lia.
  - exists z. rewrite nthN_updN_ne by congruence. auto.
Qed.
Lemma hb_inc i d : hb (increase_balance E i d).
Proof.
  intros u Hu. unfold increase_balance, sbind, rd, md. destruct (idx (balances u) i) as [x| | |] eqn:Hx; cbn [rbind snd]; try exact Hu. apply idx_ok in Hx.
  destruct (add E x d) as [y| | |] eqn:Hy; cbn [snd]; try exact Hu. apply hb_upd; [exact Hu|eapply nthN_some; eauto|]. left. intros x' Hx'. rewrite Hx in Hx'. injection Hx' as <-.
  apply (add_exact E x d y Hk) in Hy. lia.
Qed.
Lemma hb_dec i d : (forall v, nthN (validators s0) i = Some v -> due i v) -> hb (decrease_balance E i d).
Proof.
  intros H u Hu. unfold decrease_balance, sbind, rd, md. destruct (idx (balances u) i) as [x| | |] eqn:Hx; cbn [rbind snd]; try exact Hu. apply idx_ok in Hx.
  destruct (if x <? d then Ok 0 else sub E x d) as [y| | |]; cbn [snd]; try exact Hu. apply hb_upd; [exact Hu|eapply nthN_some; eauto|]. right. exact H.
Qed.
Ltac bt1 :=
  match goal with
  | |- forall _, _ => intro
  | |- hb (sbind _ _) => apply hb_bind
  | |- hb (rd _) => apply hb_rd
  | |- hb (lift _) => apply hb_lift
  | |- hb (sret _) => apply hb_ret
  | |- hb (swhen _ _) => apply hb_when
  | |- hb (sfor _ _) => apply hb_for
  | |- hb (sfold _ _ _) => apply hb_fold
  | |- hb (increase_balance _ _ _) => apply hb_inc
  | |- hb (mod_validator _ _) => apply hb_mod
  | |- hb (let _ := _ in _) => cbv zeta
  | |- hb (match ?x with _ => _ end) => destruct x
  | |- hb (md _) => apply hb_md; intro; gs; split; reflexivity
  end.
Ltac bt := repeat bt1.

Lemma b_exit g i : hb (initiate_exit E g i).
Proof. destruct g; unfold initiate_exit, initiate_validator_exit, initiate_validator_exit_electra, compute_exit_epoch_and_update_churn; bt. Qed.
Lemma b_slash i : convicted E s0 b i -> hb (slash_validator E f i None).
Proof. intros H. unfold slash_validator. bt; try apply b_exit. apply hb_dec. intros v _. right. left. exact H. Qed.

Definition P1 (u : BeaconState) : Prop := inv s0 (blink E f s0 b) (fun _ => False) u /\ bal u.
Definition P2 (u : BeaconState) : Prop := inv s0 (blink E f s0 b) bfresh u /\ bal u.
Lemma p1 {A} (m : St BeaconState A) : holdI s0 (blink E f s0 b) (fun _ => False) m -> hb m -> hp P1 m.
Proof. intros H1 H2 u [U1 U2]. split; auto. Qed.
Lemma p2 {A} (m : St BeaconState A) : holdI s0 (blink E f s0 b) bfresh m -> hb m -> hp P2 m.
Proof. intros H1 H2 u [U1 U2]. split; auto. Qed.
Lemma p12 u : P1 u -> P2 u.
Proof. intros [U1 U2]. split; [|exact U2]. refine (inv_weaken _ _ _ _ _ _ _ _ U1); [auto|intros v []]. Qed.
Lemma hpx (P : BeaconState -> Prop) {A B} (m : St BeaconState A) (k : A -> St BeaconState B) : hp P m -> (forall a, hp P (k a)) -> hp P (sbind m k).
Proof. intros H1 H2 u Hu. specialize (H1 u Hu). unfold sbind. destruct (m u) as [[a| | |] t]; cbn [snd] in *; auto. apply H2. exact H1. Qed.

Lemma p_proposer op : In op (bb_proposer_slashings body) -> hp P1 (process_proposer_slashing E f op).
Proof.
  intros Hop u [I B]. split; [apply hold1_proposer; assumption|]. unfold process_proposer_slashing, sbind, rd. destruct (proposer_slashing_checks E op u) as [i| | |] eqn:K; cbn [snd]; try exact B.
  apply b_slash; [|exact B]. apply proposer_slashing_checks_iff in K as [K ->]; [|exact Hc].
  destruct K as (B1 & B2 & B3 & v & B4 & B5 & B6 & B7). destruct (inv_at _ _ _ _ _ _ I B4) as [(w & A1 & A2)|[_ []]].
  left. exists op, w. split; [exact Hop|]. split; [exact A1|]. cbv zeta. split; [reflexivity|]. split; [symmetry; exact B2|]. split; [exact B1|].
  split; [exact B3|]. rewrite (bl_pk _ _ _ _ _ _ _ A2) in B6, B7. split; eapply signed_same; eauto.
Qed.
Lemma p_attester op : In op (bb_attester_slashings body) -> hp P1 (process_attester_slashing E f op).
Proof.
  intros Hop u [I B]. split; [apply hold1_attester; assumption|]. unfold process_attester_slashing, sbind at 1, rd at 1.
  destruct (attester_slashing_checks E op u) as [l| | |] eqn:K; cbn [snd]; try exact B. apply attester_checks_iff in K as [(B1 & B2 & B3) ->]. revert u I B B1 B2 B3.
  intros u I B B1 B2 B3. enough (G : hb (let* cur := rd (get_current_epoch E) in
    let* slashed_any := sfold (fun b i => let* v := rd (fun s => idx (validators s) i) in
        if is_slashable_validator v cur then slash_validator E f i None ;; sret true else sret b) (sorted_intersection (ia_attesting_indices (as_1 op)) (ia_attesting_indices (as_2 op))) false in
    lift (require slashed_any EASNoSlashings))) by (apply G; exact B).
  bt. apply b_slash. match goal with H : In _ (sorted_intersection _ _) |- _ => apply In_sorted_intersection in H as [Hi1 Hi2] end. right. exists op. repeat (split; [assumption|]).
  split; eapply valid_same; eauto.
Qed.
Lemma b_attestation a : hb (process_attestation E f a).
Proof.
  assert (A : hb (process_attestation_altair E f a)).
  { unfold process_attestation_altair, attestation_flag_step, set_participation. bt. apply hb_md. intros t. destruct b0; gs; auto. }
  assert (B : hb (process_attestation_phase0 E a)) by (unfold process_attestation_phase0; bt).
  unfold process_attestation. destruct f; assumption.
Qed.
Lemma b_app u g x : (balances (g u) = balances u ++ [x]) -> current_sync_committee (g u) = current_sync_committee u -> bal u -> bal (g u).
Proof.
  intros H1 H2 [B1 B2]. split; [|congruence]. rewrite H1. intros i v y Hv Hy. destruct (B1 i v y Hv Hy) as (z & A1 & A2). exists z. split; [|exact A2]. rewrite nthN_app_l; [exact A1|eapply nthN_some; eauto].
Qed.
Lemma b_add g pk wc amount : hb (add_validator_to_registry E g pk wc amount).
Proof.
  assert (A : hb (let* v := lift (get_validator_from_deposit E pk wc amount) in
    md (fun s => set_balances (balances s ++ [amount]) (set_validators (validators s ++ [v]) s)) ;;
    swhen (fork_le Altair g)
      (md (fun s => set_inactivity_scores (inactivity_scores s ++ [0])
             (set_current_epoch_participation (current_epoch_participation s ++ [0])
             (set_previous_epoch_participation (previous_epoch_participation s ++ [0]) s)))))).
  { bt. intros u Hu. cbn [md snd]. revert Hu. apply (b_app u (fun s => set_balances (balances s ++ [amount]) (set_validators (validators s ++ [a]) s)) amount); reflexivity. }
  destruct g; cbn [add_validator_to_registry]; try exact A. intros u Hu. cbn [md snd]. revert Hu.
  apply (b_app u (fun s => set_pending_balance_deposits (pending_balance_deposits s ++ [mkPBD (lenN (validators s)) amount])
         (set_inactivity_scores (inactivity_scores s ++ [0])
         (set_current_epoch_participation (current_epoch_participation s ++ [0])
         (set_previous_epoch_participation (previous_epoch_participation s ++ [0])
         (set_balances (balances s ++ [0])
         (set_validators (validators s ++ [get_validator_from_deposit_electra pk wc]) s)))))) 0); reflexivity.
Qed.
Lemma b_switch i : (forall v, nthN (validators s0) i = Some v -> asks_compounding E f b v) -> hb (switch_to_compounding_validator E i).
Proof.
  intros H. unfold switch_to_compounding_validator, queue_excess_active_balance. bt1; [bt|]. intros v. destruct (has_eth1_withdrawal_credential v); [|bt]. apply hb_bind; [bt|]. intros _.
  intros u Hu. unfold sbind at 1, rd at 1. destruct (idx (balances u) i) as [x| | |] eqn:Hx; cbn [snd]; try exact Hu. apply idx_ok in Hx. destruct (_ <? x); [|exact Hu].
  unfold sbind at 1, lift at 1. destruct (ok_or _ _) as [e| | |]; cbn [snd]; try exact Hu. unfold sbind at 1, md at 1. cbn beta iota.
  assert (B : bal (set_balances (updN (balances u) i (MIN_ACTIVATION_BALANCE E)) u)).
  { apply hb_upd; [exact Hu|eapply nthN_some; eauto|]. right. intros w Hw. right. right. right. apply H. exact Hw. }
  revert B. generalize (set_balances (updN (balances u) i (MIN_ACTIVATION_BALANCE E)) u). intros t Ht. revert t Ht.
  match goal with |- forall t, _ -> bal (snd (?m t)) => change (hb m) end. bt.
Qed.
Lemma p_apply_electra pk wc amount sg : f = Electra ->
  ((exists d, In d (bb_deposits body) /\ dd_public_key (dep_data d) = pk /\ dd_withdrawal_credentials (dep_data d) = wc /\ dd_amount (dep_data d) = amount /\ dd_signature (dep_data d) = sg)
   \/ (exists r, In r (ep_deposit_receipts (bb_execution_payload body)) /\ dr_public_key r = pk /\ dr_withdrawal_credentials r = wc /\ dr_amount r = amount /\ dr_signature r = sg)) ->
  hp P2 (apply_deposit_electra E pk wc amount sg).
Proof.
  intros Hf Hd u [I B]. split; [apply hold2_apply_electra; assumption|]. unfold apply_deposit_electra, sbind at 1, rd at 1. destruct (position_pk pk (validators u) 0) as [i|] eqn:Ho.
  - apply holder_position in Ho. destruct Ho as [Ho _].
    assert (Hpk : forall v0, nthN (validators s0) i = Some v0 -> pk = v_public_key v0).
    { intros v0 Hv0. destruct (iv_old _ _ _ _ I i v0 Hv0) as (w & W1 & W2). rewrite <- (bl_pk _ _ _ _ _ _ _ W2). unfold key_of in Ho. rewrite W1 in Ho. cbn in Ho. congruence. }
    clear I. revert u B Ho. intros u B _. revert u B.
    match goal with |- forall t, _ -> bal (snd (?m t)) => change (hb m) end. apply hb_bind; [bt|]. intros _. intros u B. unfold sbind at 1, lift at 1.
    destruct (is_valid_deposit_signature E pk wc amount sg) as [[]| | |] eqn:Hs; cbn [snd]; try exact B. apply deposit_sig_ok in Hs. revert u B.
    match goal with |- forall t, _ -> bal (snd (?m t)) => change (hb m) end. apply hb_bind; [bt|]. intros v. apply hb_when. intros Hb. apply andb_true_iff in Hb as [Hb _]. apply b_switch. intros v0 Hv0.
    specialize (Hpk v0 Hv0). split; [exact Hf|]. exists wc, amount, sg. rewrite <- Hpk. split; [|split; [exact Hs|exact Hd]].
    destruct wc as [|x wc]; [discriminate Hb|]. cbn in Hb. apply N.eqb_eq in Hb. rewrite Hb. reflexivity.
  - revert u B I Ho. intros u B _ _. revert u B. match goal with |- forall t, _ -> bal (snd (?m t)) => change (hb m) end. bt. apply b_add.
Qed.
Lemma p_deposit d : In d (bb_deposits body) -> hp P2 (process_deposit E f d).
Proof.
  intros Hd. destruct (fork_is_electra f) as [He|He].
  - unfold process_deposit. apply hpx; [apply p2; [apply hi_quiet; qt|bt]|]. intros _. apply hpx; [apply p2; [apply hi_quiet; qt|bt]|]. intros i. apply hpx; [apply p2; [apply hi_quiet; qt|bt]|]. intros _. cbv zeta.
    unfold apply_deposit. rewrite He. apply p_apply_electra; [exact He|]. left. exists d. auto.
  - apply p2; [apply hold2_deposit; assumption|]. unfold process_deposit, apply_deposit. bt; try congruence; unfold apply_deposit_phase0; bt; apply b_add.
Qed.
Lemma swept (g : Fork) u w : forall n wi vi acc ws, sweep E g n u (epoch_of E u) wi vi acc = Ok ws -> In w ws -> In w acc
  \/ (due_at E g u (w_validator_index w) = Some (w_amount w) /\ w_address w = execution_address u (w_validator_index w)).
Proof.
  induction n as [|n IH]; intros wi vi acc ws H Hin; cbn [sweep] in H; [apply Ok_inj in H; subst; auto|].
  apply rbind_ok_inv in H as (v & Hv & H). apply idx_ok in Hv. apply rbind_ok_inv in H as (x & Hx & H). apply idx_ok in Hx. rewrite sweep_amount_ok in H. cbn [rbind] in H.
  apply rbind_ok_inv in H as ((wi' & acc') & Hr & H). cbn [fst snd] in H.
  assert (A : In w acc' -> In w acc \/ (due_at E g u (w_validator_index w) = Some (w_amount w) /\ w_address w = execution_address u (w_validator_index w))).
  { destruct (sweep_due E g u v x) as [a|] eqn:Hd; [|apply Ok_inj in Hr; injection Hr as <- <-; auto]. apply rbind_ok_inv in Hr as (k & _ & Hr). apply Ok_inj in Hr. injection Hr as <- <-.
    intros Hw. apply in_app_or in Hw. destruct Hw as [Hw|[<-|[]]]; [auto|]. right. cbn. unfold due_at, execution_address. rewrite Hv, Hx. split; [exact Hd|reflexivity]. }
  destruct (lenN acc' =? _); [apply Ok_inj in H; subst; auto|]. apply rbind_ok_inv in H as (v1 & _ & H). apply rbind_ok_inv in H as (v2 & _ & H). destruct (IH _ _ _ _ H Hin) as [B|B]; auto.
Qed.
Lemma p_withdrawals u : fork_le Capella f = true -> (f = Electra -> pending_partial_withdrawals s0 = []) -> settled s0 u -> bal u ->
  bal (snd (process_withdrawals E f (bb_execution_payload body) u)).
Proof.
  intros Hf Hp [S1 S2 S3 S4 S5] B. unfold process_withdrawals, sbind at 1, rd at 1. destruct (withdrawals_checks E f (bb_execution_payload body) u) as [[ws n]| | |] eqn:K; cbn [snd]; try exact B.
  assert (D : forall w, In w (ep_withdrawals (bb_execution_payload body)) -> paid_out E f s0 b (w_validator_index w)).
  { unfold withdrawals_checks in K. rinv K. subst x. match goal with H : withdrawals_eqb _ _ = true |- _ => unfold withdrawals_eqb in H; destruct (list_eq_dec _ _ _) as [Hw|]; [|discriminate H] end.
    cbn [fst] in Hw. intros w Hin. split; [exact Hf|]. exists w. split; [exact Hin|]. split; [reflexivity|]. rewrite Hw in Hin.
    match goal with H : get_expected_withdrawals E f u = Ok _ |- _ => rename H into Hg end.
    assert (G : forall wi vi, sweep E f (N.to_nat (sweep_bound E u)) u (epoch_of E u) wi vi [] = Ok ws -> due_at E f s0 (w_validator_index w) = Some (w_amount w) /\ w_address w = execution_address s0 (w_validator_index w)).
    { intros wi vi H. destruct (swept f u w _ _ _ _ _ H Hin) as [[]|[A1 A2]]. unfold due_at, execution_address, sweep_due, epoch_of in *. rewrite S1, ?S2, ?S3 in *. auto. }
    assert (G' : f <> Electra -> forall wi vi, sweep E Capella (N.to_nat (sweep_bound E u)) u (epoch_of E u) wi vi [] = sweep E f (N.to_nat (sweep_bound E u)) u (epoch_of E u) wi vi []).
    { intros Hne wi vi. generalize (@nil Withdrawal). revert wi vi. generalize (N.to_nat (sweep_bound E u)). induction n0 as [|n0 IH]; intros wi vi acc; [reflexivity|]. cbn [sweep].
      assert (Q : forall v x e, sweep_amount E Capella v x e = sweep_amount E f v x e) by (intros; unfold sweep_amount; destruct f; try reflexivity; congruence).
      destruct (idx (validators u) vi); cbn [rbind]; try reflexivity. destruct (idx (balances u) vi); cbn [rbind]; try reflexivity. rewrite Q. destruct (sweep_amount E f _ _ _); cbn [rbind]; try reflexivity.
      match goal with |- rbind ?r _ = _ => destruct r as [[w1 acc1]| | |] end; cbn [rbind fst snd]; try reflexivity. destruct (_ =? _); [reflexivity|].
      destruct (add E vi 1); cbn [rbind]; try reflexivity. destruct (umod _ _); cbn [rbind]; try reflexivity. apply IH. }
    destruct (fork_is_electra f) as [He|He].
    - rewrite He in Hg. cbn [get_expected_withdrawals] in Hg. unfold get_expected_withdrawals_electra in Hg. rewrite (current_epoch_ok E Hc) in Hg. cbn [rbind] in Hg. rewrite S5, (Hp He) in Hg. cbn [partials rbind fst snd] in Hg.
      apply rbind_ok_inv in Hg as (ws' & Hg & Hg'). apply Ok_inj in Hg'. injection Hg' as -> _. rewrite <- He in Hg. eapply G. exact Hg.
    - assert (Hg2 : (let! ws := get_expected_withdrawals_capella E u in Ok (ws, 0)) = Ok (ws, n)) by (revert Hg; clear - He; destruct f; auto; congruence).
      unfold get_expected_withdrawals_capella in Hg2. rewrite (current_epoch_ok E Hc) in Hg2. cbn [rbind] in Hg2. apply rbind_ok_inv in Hg2 as (ws' & Hg2 & Hg'). apply Ok_inj in Hg'. injection Hg' as -> _.
      rewrite (G' He) in Hg2. eapply G. exact Hg2. }
  clear K S1 S2 S3 S4 S5. revert u B. match goal with |- forall t, _ -> bal (snd (?m t)) => change (hb m) end. cbn [fst snd]. bt1; [|bt].
  apply hb_for. intros w Hw. apply hb_dec. intros v _. left. apply D. exact Hw.
Qed.
Lemma last_position_key pk : forall vs i0 acc i, last_position_pk pk vs i0 acc = Some i ->
  acc = Some i \/ (i0 <= i /\ exists v, nthN vs (i - i0) = Some v /\ v_public_key v = pk).
Proof.
  induction vs as [|v vs IH]; intros i0 acc i H; cbn [last_position_pk] in H; [auto|]. apply IH in H. destruct H as [H|(H1 & w & H2 & H3)].
  - destruct (bytes_eqb (v_public_key v) pk) eqn:Hb; [|auto]. injection H as <-. right. split; [lia|]. exists v. replace (i0 - i0) with 0 by lia. split; [reflexivity|]. apply bytes_eqb_iff. exact Hb.
  - right. split; [lia|]. exists w. split; [|exact H3]. replace (i - i0) with (i - (i0 + 1) + 1) by lia. rewrite nthN_succ. exact H2.
Qed.
Lemma seats (u : BeaconState) : forall (pks : list bytes) (l : list N) (bits : list bool) (p : N * bool), Forall2 (fun pk i => expect (last_position_pk pk (validators u) 0 None) = Ok i) pks l -> In p (combine l bits) ->
  exists k pk v, nthN pks k = Some pk /\ nthN bits k = Some (snd p) /\ nthN (validators u) (fst p) = Some v /\ v_public_key v = pk.
Proof.
  intros pks l bits p H. revert bits. induction H as [|pk i pks l H _ IH]; intros [|c bits] Hin; cbn [combine] in Hin; try contradiction. destruct Hin as [<-|Hin].
  - unfold expect in H. destruct (last_position_pk pk (validators u) 0 None) as [j|] eqn:K; [|discriminate H]. apply Ok_inj in H. subst j. apply last_position_key in K as [K|(_ & v & K1 & K2)]; [discriminate K|].
    rewrite N.sub_0_r in K1. exists 0, pk, v. cbn [fst snd]. auto.
  - destruct (IH bits Hin) as (k & pk' & v & A1 & A2 & A3). exists (k + 1), pk', v. rewrite !nthN_succ. auto.
Qed.
Lemma p_sync : fork_le Altair f = true -> forall u, P2 u -> bal (snd (process_sync_aggregate E (bb_sync_aggregate body) u)).
Proof.
  intros Hf u [I B]. unfold process_sync_aggregate, sbind at 1, rd at 1. destruct (sync_aggregate_checks E _ u) as [[]| | |]; cbn [snd]; try exact B.
  unfold sbind at 1, rd at 1. destruct (sync_rewards E u) as [r| | |]; cbn [snd]; try exact B. unfold sbind at 1, rd at 1. destruct (sync_indices u) as [l| | |] eqn:Hl; cbn [snd]; try exact B.
  assert (G : forall p, In p (combine l (sa_bits (bb_sync_aggregate body))) -> snd p = false -> forall v, nthN (validators s0) (fst p) = Some v -> missed_sync f s0 b v).
  { intros p Hin Hb v Hv. split; [exact Hf|]. destruct B as [_ B]. rewrite <- B. unfold sync_indices in Hl. apply rmap_ok in Hl. destruct (seats u _ _ _ p Hl Hin) as (k & pk & w & A1 & A2 & A3 & A4).
    exists k. rewrite <- Hb. split; [|exact A2]. rewrite A1. f_equal. destruct (iv_old _ _ _ _ I _ v Hv) as (w' & W1 & W2). rewrite A3 in W1. injection W1 as <-. rewrite <- A4. apply (bl_pk _ _ _ _ _ _ _ W2). }
  clear Hl I. revert u B. match goal with |- forall t, _ -> bal (snd (?m t)) => change (hb m) end. apply hb_for. intros p Hp. unfold sync_step. destruct (snd p) eqn:Hb; [bt|].
  apply hb_dec. intros v Hv. right. right. left. eapply G; eauto.
Qed.
Lemma p_operations u : P1 u -> P2 (snd (process_operations E f body u)).
Proof.
  unfold process_operations.
  assert (G : forall (A B : Type) (m : St BeaconState A) (k : A -> St BeaconState B), hp P1 m -> (forall a t, P1 t -> P2 (snd (k a t))) -> forall t, P1 t -> P2 (snd (sbind m k t))).
  { intros A B m k H1 H2 t It. specialize (H1 t It). unfold sbind. destruct (m t) as [[a| | |] t']; cbn [snd] in *; auto using p12. }
  revert u. apply G; [apply p1; [apply hi_quiet; qt|bt]|]. intros _. apply G; [apply hp_for; intros op Hop; apply p_proposer; exact Hop|]. intros _.
  apply G; [apply hp_for; intros op Hop; apply p_attester; exact Hop|]. intros _ t It. apply p12 in It. revert t It.
  match goal with |- forall t, P2 t -> P2 (snd (?m t)) => change (hp P2 m) end.
  apply hpx; [apply p2; [apply hi_quiet; qt; apply quiet_attestation|apply hb_for; intros a _; apply b_attestation]|]. intros _.
  apply hpx; [apply hp_for; intros d Hd; apply p_deposit; exact Hd|]. intros _.
  apply hpx. { apply hp_for; intros d Hd. apply p2; [apply hold2_voluntary; assumption|]. unfold process_voluntary_exit. bt. apply b_exit. } intros _.
  apply hpx. { apply p2; [apply hi_when; intros Hf; apply hi_for; intros d Hd; apply hold2_bls; assumption|]. unfold process_bls_to_execution_change. bt. } intros _.
  destruct (fork_le Electra f) eqn:Hf; [|apply p2; [apply hi_quiet; cbn [swhen]; qt|apply hb_when; discriminate]]. assert (He : f = Electra) by (clear - Hf; destruct f; first [reflexivity|discriminate Hf]). cbn [swhen].
  apply hpx. { apply hp_for; intros d Hd. apply p2; [apply hold2_request; assumption|]. unfold process_execution_layer_withdrawal_request, compute_exit_epoch_and_update_churn. bt; apply (b_exit Electra). } intros _.
  apply hpx; [|intros _; apply hp_for; intros d Hd; apply p2; [apply hold2_consolidation; assumption|unfold process_consolidation, compute_consolidation_epoch_and_update_churn; bt]].
  apply hp_for. intros r Hr. unfold process_deposit_receipt. apply hpx.
  { apply p2; [apply hi_quiet; apply pres_md; intros t; destruct (_ =? _); [constructor; gs; reflexivity|apply quiet_refl]|]. apply hb_md. intros t. destruct (_ =? _); gs; auto. }
  intros _. apply p_apply_electra; [exact He|]. right. exists r. auto.
Qed.
Lemma b_block : (f = Electra -> pending_partial_withdrawals s0 = []) -> bal (snd (process_block E f b s0)).
Proof.
  intros Hp. assert (B0 : bal s0) by (split; [|reflexivity]; intros i v x _ Hx; exists x; split; [exact Hx|left; lia]).
  assert (I0 : inv s0 (blink E f s0 b) (fun _ => False) s0) by (apply inv_start; intros i v _; constructor; auto; apply due_refl).
  unfold process_block. cbv zeta. unfold sbind at 1.
  assert (S : settled s0 (snd (process_block_header E f b s0))). { enough (Q : pres settled (process_block_header E f b)) by apply Q. unfold process_block_header. repeat st1. }
  assert (Q : P1 (snd (process_block_header E f b s0))).
  { enough (Q : hp P1 (process_block_header E f b)) by (apply Q; split; assumption). apply p1; [apply hi_quiet|]; unfold process_block_header; [qt|bt]. }
  destruct (process_block_header E f b s0) as [[a| | |] u1]; cbn [snd] in *; try apply Q. clear a.
  assert (G : forall (A : Type) (m : St BeaconState A) (k : A -> St BeaconState unit), hp P1 m -> (forall a t, P1 t -> bal (snd (k a t))) -> forall t, P1 t -> bal (snd (sbind m k t))).
  { intros A m k H1 H2 t It. specialize (H1 t It). unfold sbind. destruct (m t) as [[a| | |] t']; cbn [snd] in *; try apply H1. apply H2. exact H1. }
  assert (R : forall t, P1 t -> bal (snd ((process_randao E body ;; process_eth1_data E body ;; process_operations E f body ;; swhen (fork_le Altair f) (process_sync_aggregate E (bb_sync_aggregate body))) t))).
  { apply G; [apply p1; [apply hi_quiet|]; unfold process_randao; [qt|bt]|]. intros _. apply G; [apply p1; [apply hi_quiet|]; unfold process_eth1_data; [qt|bt]|]. intros _ t It.
    unfold sbind at 1. pose proof (p_operations t It) as O. destruct (process_operations E f body t) as [[a| | |] t']; cbn [snd] in *; try apply O.
    destruct (fork_le Altair f) eqn:Hf; [|apply O]. cbn [swhen]. apply p_sync; [exact Hf|exact O]. }
  assert (X : forall g, hp P1 (process_execution_payload E g body)) by (intros g; apply p1; [apply hi_quiet|]; unfold process_execution_payload; [qt|bt]).
  assert (W : fork_le Capella f = true -> P1 (snd (process_withdrawals E f (bb_execution_payload body) u1))).
  { intros Hf. split; [|apply p_withdrawals; auto; apply Q]. enough (Z : holdI s0 (blink E f s0 b) (fun _ => False) (process_withdrawals E f (bb_execution_payload body))) by (apply Z; apply Q).
    apply hi_quiet. unfold process_withdrawals. qt. }
  assert (V : P1 (snd ((match f with
   | Phase0 | Altair => sret tt
   | Bellatrix => let* en := rd (fun s => Ok (is_execution_enabled E s body)) in swhen en (process_execution_payload E f body)
   | _ => process_withdrawals E f (bb_execution_payload body) ;; process_execution_payload E f body
   end : St BeaconState unit) u1))).
  { assert (V1 : P1 (snd ((let* en := rd (fun s => Ok (is_execution_enabled E s body)) in swhen en (process_execution_payload E f body)) u1))).
    { unfold sbind, rd. destruct (is_execution_enabled E u1 body); [apply X; exact Q|exact Q]. }
    assert (V2 : fork_le Capella f = true -> P1 (snd ((process_withdrawals E f (bb_execution_payload body) ;; process_execution_payload E f body) u1))).
    { intros Hf. specialize (W Hf). unfold sbind. destruct (process_withdrawals E f _ u1) as [[a| | |] t]; cbn [snd] in *; try exact W. apply X. exact W. }
    clear - Q V1 V2. destruct f; first [exact Q|exact V1|apply V2; reflexivity]. }
  unfold sbind at 1. match goal with |- bal (snd (match ?m with _ => _ end)) => destruct m as [[a| | |] u2] end; cbn [snd] in *; try apply V. apply R. exact V.
Qed.
End Blk.
