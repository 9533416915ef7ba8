(** * Lemmas about genesis *)
From Verif Require Import Base BaseLemmas Types Ctx Presets Env Helpers HelpersAltair HelpersElectra Block Epoch Transition Upgrade Genesis StLemmas
  SpecCommon SpecShuffle SpecHelpers SpecElectra SpecOps SpecBlock SpecAtt SpecEpoch SpecFlow SpecGenesis HelperProofs HelperProofs2 OpsProofs FlowProofs.

Lemma snoc_inj {A} (l k : list A) x y : l ++ [x] = k ++ [y] -> l = k /\ x = y.
Proof. apply app_inj_tail. Qed.
Lemma nthN_split {A} (l : list A) i x : nthN l i = Some x -> exists l1 l2, l = l1 ++ x :: l2 /\ lenN l1 = i.
Proof.
  revert i. induction l as [|y l IH]; intros i H; [discriminate|]. cbn [nthN] in H. destruct (N.eqb_spec i 0) as [Hi|Hi].
  - subst i. injection H as ->. exists [], l. split; reflexivity.
  - destruct (IH _ H) as (l1 & l2 & -> & Hl). exists (y :: l1), l2. split; [reflexivity|]. rewrite lenN_cons. lia.
Qed.
Lemma updN_split {A} (l1 : list A) x l2 y : updN (l1 ++ x :: l2) (lenN l1) y = l1 ++ y :: l2.
Proof.
  induction l1 as [|z l1 IH]; [reflexivity|]. cbn [app]. rewrite lenN_cons. cbn [updN]. replace (lenN l1 + 1 =? 0) with false by lia.
  replace (lenN l1 + 1 - 1) with (lenN l1) by lia. rewrite IH. reflexivity.
Qed.

Section WithEnv.
Variable E : Env.
Hypothesis Hctx : ctx_sane E.
Hypothesis Hdom : exists dom, deposit_domain E dom.
Variable f : Fork.
Hypothesis Hf : f <> Electra.

Lemma registry_sum ds r : registry E ds r -> sumN (map en_balance r) <= sumN (map dd_amount ds).
Proof.
  assert (Hs : forall a b, sumN (a ++ b) = sumN a + sumN b). { induction a as [|x a IH]; intros b; [reflexivity|]. cbn [app]. change (sumN (x :: a ++ b)) with (x + sumN (a ++ b)). change (sumN (x :: a)) with (x + sumN a). rewrite IH. lia. }
  assert (H1 : forall x l, sumN (x :: l) = x + sumN l) by reflexivity. assert (H0 : sumN [] = 0) by reflexivity.
  intros H. induction H as [|ds d r1 e r2 _ IH _ _|ds d r _ IH _ _|ds d r _ IH _ _]; rewrite ?map_app, ?Hs in *; cbn [map en_balance] in *; rewrite ?H1, ?H0 in *; lia.
Qed.

(** a record made from a deposit *)
Definition fresh (v : Validator) (e : Entry) : Prop := exists a, v = new_record E f (en_key e) (en_credentials e) a.
Definition zeros (r : list Entry) : list N := match f with Phase0 => [] | _ => repeatN 0 (lenN r) end.
(** the state after some deposits *)
Definition laid (base : BeaconState) (vs : list Validator) (r : list Entry) (e1 : Eth1Data) (k : N) : BeaconState :=
  set_validators vs (set_balances (map en_balance r) (set_previous_epoch_participation (zeros r) (set_current_epoch_participation (zeros r)
    (set_inactivity_scores (zeros r) (set_eth1_data e1 (set_eth1_deposit_index k base)))))).
Lemma laid_validators base vs r e1 k : validators (laid base vs r e1 k) = vs. Proof. destruct base; lazy; reflexivity. Qed.
Lemma laid_balances base vs r e1 k : balances (laid base vs r e1 k) = map en_balance r. Proof. destruct base; lazy; reflexivity. Qed.
Lemma laid_eth1 base vs r e1 k : eth1_data (laid base vs r e1 k) = e1. Proof. destruct base; lazy; reflexivity. Qed.
Lemma laid_index base vs r e1 k : eth1_deposit_index (laid base vs r e1 k) = k. Proof. destruct base; lazy; reflexivity. Qed.
Lemma laid_counted base vs r e1 k : with_deposit_counted (laid base vs r e1 k) = laid base vs r e1 (k + 1). Proof. destruct base; lazy; reflexivity. Qed.
Lemma laid_set_eth1 base vs r e1 k e : set_eth1_data e (laid base vs r e1 k) = laid base vs r e k. Proof. destruct base; lazy; reflexivity. Qed.
Lemma laid_set_validators base vs r e1 k c : set_validators c (laid base vs r e1 k) = laid base c r e1 k. Proof. destruct base; lazy; reflexivity. Qed.
Lemma laid_set_balances base vs r r' e1 k : lenN r = lenN r' -> set_balances (map en_balance r') (laid base vs r e1 k) = laid base vs r' e1 k.
Proof. intros H. unfold laid, zeros. rewrite H. destruct base; lazy; reflexivity. Qed.
Lemma laid_fields base vs r e1 k : previous_epoch_participation (laid base vs r e1 k) = zeros r /\ current_epoch_participation (laid base vs r e1 k) = zeros r /\ inactivity_scores (laid base vs r e1 k) = zeros r.
Proof. destruct base; split; [|split]; lazy; reflexivity. Qed.
Lemma zeros_snoc r e : f <> Phase0 -> zeros (r ++ [e]) = zeros r ++ [0].
Proof.
  intros Hp. assert (H : repeatN 0 (lenN (r ++ [e])) = repeatN 0 (lenN r) ++ [0]). { unfold repeatN, lenN. rewrite app_length, Nnat.Nat2N.id, Nnat.Nat2N.id. cbn [length]. rewrite repeat_app. reflexivity. }
  unfold zeros. destruct f; try exact H. contradiction.
Qed.
Lemma zeros_same r r' : lenN r = lenN r' -> zeros r = zeros r'.
Proof. intros H. unfold zeros. rewrite H. reflexivity. Qed.
Lemma laid_with_validator base vs r e1 k v e : with_validator f v (en_balance e) (laid base vs r e1 k) = laid base (vs ++ [v]) (r ++ [e]) e1 k.
Proof.
  assert (Hp : f = Phase0 \/ f <> Phase0) by (clear; destruct f; (left; reflexivity) || (right; discriminate)).
  assert (Hz : f = Phase0 \/ zeros (r ++ [e]) = zeros r ++ [0]) by (destruct Hp as [Hp|Hp]; [auto|right; apply zeros_snoc; exact Hp]).
  unfold with_validator, laid. rewrite map_app. destruct Hz as [Hz|Hz].
  - unfold zeros. rewrite Hz. destruct base; lazy; reflexivity.
  - rewrite Hz. destruct f eqn:Hfe; try (destruct base; lazy; reflexivity). exfalso. unfold zeros in Hz. rewrite Hfe in Hz. discriminate Hz.
Qed.
Lemma keys_of base vs r e1 k : Forall2 fresh vs r -> forall i, key_of (laid base vs r e1 k) i = option_map en_key (nthN r i).
Proof.
  intros H i. unfold key_of. rewrite laid_validators. revert i. induction H as [|v e vs r [a ->] _ IH]; intros i; [reflexivity|]. cbn [nthN]. destruct (i =? 0); [reflexivity|apply IH].
Qed.
Lemma genesis_step base vs r e1 k ds d root : registry E ds r -> Forall2 fresh vs r -> k + 1 < 2 ^ 64 -> sumN (map dd_amount ds) + dd_amount (dep_data d) < 2 ^ 64 ->
  let e1' := mkEth1 root (e1_deposit_count e1) (e1_block_hash e1) in
  let s := laid base vs r e1' k in
  (~ deposit_proven E s d -> rejected (process_deposit E f d) s)
  /\ (deposit_proven E s d -> exists vs' r', process_deposit E f d s = (Ok tt, laid base vs' r' e1' (k + 1)) /\ registry E (ds ++ [dep_data d]) r' /\ Forall2 fresh vs' r').
Proof.
  intros Hr Hfr Hk Hsum e1' s. destruct (deposit_guard E f d s) as [G1 G2]; [exact Hk|]. split; [exact G2|]. intros Hp. rewrite (G1 Hp).
  set (pk := dd_public_key (dep_data d)). set (wc := dd_withdrawal_credentials (dep_data d)). set (amount := dd_amount (dep_data d)) in *. set (sg := dd_signature (dep_data d)).
  assert (Hlen : lenN (balances (with_deposit_counted s)) = lenN (validators (with_deposit_counted s))).
  { unfold s. rewrite laid_counted, laid_balances, laid_validators, lenN_map. symmetry. eapply Forall2_len. exact Hfr. }
  assert (Hb : forall b, In b (balances (with_deposit_counted s)) -> b + amount < 2 ^ 64).
  { unfold s. rewrite laid_counted, laid_balances. intros b Hb. pose proof (registry_sum ds r Hr) as Hs. enough (b <= sumN (map en_balance r)) by lia.
    clear - Hb. induction (map en_balance r) as [|x l IH]; [contradiction|]. change (sumN (x :: l)) with (x + sumN l). destruct Hb as [->|Hb]; [lia|]. specialize (IH Hb). lia. }
  destruct (apply_deposit_early E Hctx f pk wc amount sg (with_deposit_counted s) Hf Hlen Hdom Hb) as (s' & A0 & A1 & A2 & A3). rewrite A0.
  assert (Hkeys : forall i, key_of (with_deposit_counted s) i = option_map en_key (nthN r i)).
  { intros i. unfold s. rewrite laid_counted. apply keys_of. exact Hfr. }
  assert (Hcount : with_deposit_counted s = laid base vs r e1' (k + 1)) by apply laid_counted.
  destruct (position_pk pk (validators (with_deposit_counted s)) 0) as [i|] eqn:Hpos.
  - apply holder_position in Hpos. rewrite (A1 i Hpos). destruct Hpos as [Hi Hmin]. rewrite Hkeys in Hi.
    destruct (nthN r i) as [e|] eqn:He; [|discriminate Hi]. injection Hi as Hi. destruct (nthN_split _ _ _ He) as (r1 & r2 & -> & Hl1).
    exists vs, (r1 ++ mkEntry (en_key e) (en_credentials e) (en_balance e + amount) :: r2). split; [|split].
    + f_equal. rewrite Hcount, laid_balances. unfold credit. rewrite nthN_map, He. cbn [option_map].
      assert (Hu : updN (map en_balance (r1 ++ e :: r2)) i (en_balance e + amount) = map en_balance (r1 ++ mkEntry (en_key e) (en_credentials e) (en_balance e + amount) :: r2)).
      { rewrite !map_app. cbn [map en_balance]. replace i with (lenN (map en_balance r1)) by (rewrite lenN_map; exact Hl1). apply updN_split. }
      rewrite Hu. apply laid_set_balances. rewrite !lenN_app, !lenN_cons. reflexivity.
    + apply reg_top_up; [exact Hr|exact Hi|]. intros Hin. apply in_map_iff in Hin as (e' & Hke & Hin). destruct (In_nth_error _ _ Hin) as [j Hj].
      assert (Hjl : (j < length r1)%nat) by (apply nth_error_Some; congruence).
      apply (Hmin (N.of_nat j)); [unfold lenN in Hl1; lia|]. rewrite Hkeys, nthN_app_l by (unfold lenN; lia). 
      replace (nthN r1 (N.of_nat j)) with (Some e'); [cbn; rewrite Hke; reflexivity|]. symmetry. rewrite <- Hj. clear. revert r1. induction j as [|j IH]; intros [|x r1]; try reflexivity.
      cbn [nth_error nthN]. replace (N.of_nat (S j) =? 0) with false by lia. replace (N.of_nat (S j) - 1) with (N.of_nat j) by lia. apply IH.
    + clear - Hfr. apply Forall2_app_inv_r in Hfr as (v1 & v2 & H1 & H2 & ->). apply Forall2_app; [exact H1|]. inversion H2 as [|v e' v2' r2' He H3]; subst. constructor; [|exact H3]. destruct He as [a ->]. exists a. reflexivity.
  - apply unknown_position in Hpos.
    assert (Hunk : ~ In pk (map en_key r)).
    { intros Hin. apply in_map_iff in Hin as (e' & Hke & Hin). destruct (In_nthN _ _ Hin) as [j Hj]. apply (Hpos j). rewrite Hkeys, Hj. cbn. rewrite Hke. reflexivity. }
    destruct Hdom as [dom Hd]. destruct (deposit_sig_cases E pk wc amount sg dom Hd) as [[Hs _]|[Hs _]].
    + rewrite (A2 Hpos Hs). exists (vs ++ [new_record E f pk wc amount]), (r ++ [mkEntry pk wc amount]). split; [|split].
      * f_equal. rewrite Hcount. apply (laid_with_validator base vs r e1' (k + 1) _ (mkEntry pk wc amount)).
      * apply reg_new; assumption.
      * apply Forall2_app; [exact Hfr|]. constructor; [|constructor]. exists amount. reflexivity.
    + rewrite (A3 Hpos Hs). exists vs, r. split; [f_equal; exact Hcount|]. split; [apply reg_ignored; assumption|exact Hfr].
Qed.

(** all the deposits *)
Lemma deposits_run base ds : forall pre vs r e1 k, registry E (map dep_data pre) r -> Forall2 fresh vs r -> lenN pre = k -> lenN (pre ++ ds) < 2 ^ 64 ->
  sumN (map dd_amount (map dep_data (pre ++ ds))) < 2 ^ 64 ->
  ((exists i d, k <= i /\ nthN (pre ++ ds) i = Some d /\ ~ genesis_proven E (pre ++ ds) i d) -> is_ok (fst (genesis_deposits E f ds (map dep_data pre) (laid base vs r e1 k))) = false)
  /\ ((forall i d, k <= i -> nthN (pre ++ ds) i = Some d -> genesis_proven E (pre ++ ds) i d) ->
      exists vs' r' root, genesis_deposits E f ds (map dep_data pre) (laid base vs r e1 k)
          = (Ok tt, laid base vs' r' (mkEth1 root (e1_deposit_count e1) (e1_block_hash e1)) (lenN (pre ++ ds)))
        /\ registry E (map dep_data (pre ++ ds)) r' /\ Forall2 fresh vs' r'
        /\ (ds = [] -> root = e1_deposit_root e1) /\ (ds <> [] -> htr E (ODepositDataList (map dep_data (pre ++ ds))) = Some root)).
Proof.
  induction ds as [|d ds IH]; intros pre vs r e1 k Hr Hfr Hk Hlen Hsum.
  - rewrite app_nil_r in *. split.
    + intros (i & d & Hi & Hn & _). apply nthN_some in Hn. lia.
    + intros _. exists vs, r, (e1_deposit_root e1). cbn [genesis_deposits]. subst k. split; [destruct e1; reflexivity|]. split; [exact Hr|]. split; [exact Hfr|]. split; [auto|contradiction].
  - assert (Happ : pre ++ d :: ds = (pre ++ [d]) ++ ds) by (rewrite <- app_assoc; reflexivity).
    assert (Hnth : nthN (pre ++ d :: ds) k = Some d) by (rewrite nthN_app_r by lia; rewrite Hk, N.sub_diag; reflexivity).
    assert (Hfirst : firstN (k + 1) (map dep_data (pre ++ d :: ds)) = map dep_data pre ++ [dep_data d]).
    { unfold firstN. rewrite Happ, map_app, map_app. cbn [map]. replace (N.to_nat (k + 1)) with (length (map dep_data pre ++ [dep_data d]))%nat by (rewrite app_length, map_length; cbn [length]; unfold lenN in Hk; lia).
      rewrite firstn_app, Nat.sub_diag, firstn_all, firstn_O, app_nil_r. reflexivity. }
    cbn [genesis_deposits].
    assert (Hk1 : k + 1 < 2 ^ 64). { rewrite lenN_app, lenN_cons in Hlen. lia. }
    assert (Hsum1 : sumN (map dd_amount (map dep_data pre)) + dd_amount (dep_data d) < 2 ^ 64).
    { rewrite !map_app in Hsum. cbn [map] in Hsum. assert (Hs : forall a b, sumN (a ++ b) = sumN a + sumN b). { induction a as [|x a IHa]; intros b; [reflexivity|]. cbn [app]. change (sumN (x :: a ++ b)) with (x + sumN (a ++ b)). change (sumN (x :: a)) with (x + sumN a). rewrite IHa. lia. }
      rewrite Hs in Hsum. change (sumN (?x :: ?l)) with (x + sumN l) in Hsum. lia. }
    destruct (htr E (ODepositDataList (map dep_data pre ++ [dep_data d]))) as [root|] eqn:Hroot.
    2: { assert (Hno : ~ genesis_proven E (pre ++ d :: ds) k d). { intros (leaf & root & _ & H & _). rewrite Hfirst, Hroot in H. discriminate H. }
         split.
         - intros _. unfold sbind at 1, lift at 1, htr_r. rewrite Hroot. reflexivity.
         - intros H. exfalso. apply Hno. apply H; [lia|exact Hnth]. }
    rewrite (run_lift _ _ _ root) by (unfold htr_r; rewrite Hroot; reflexivity). rewrite run_md.
    set (e1' := mkEth1 root (e1_deposit_count e1) (e1_block_hash e1)).
    assert (Hset : set_eth1_data (mkEth1 root (e1_deposit_count (eth1_data (laid base vs r e1 k))) (e1_block_hash (eth1_data (laid base vs r e1 k)))) (laid base vs r e1 k) = laid base vs r e1' k).
    { rewrite laid_eth1. apply laid_set_eth1. }
    rewrite Hset. destruct (genesis_step base vs r e1 k (map dep_data pre) d root Hr Hfr Hk1 Hsum1) as [S1 S2]. fold e1' in S1, S2.
    assert (Hpk : deposit_proven E (laid base vs r e1' k) d <-> genesis_proven E (pre ++ d :: ds) k d).
    { unfold deposit_proven, genesis_proven. rewrite Hfirst, Hroot, laid_index, laid_eth1. unfold e1'. cbn [e1_deposit_root]. split.
      - intros (leaf & H1 & H2). exists leaf, root. auto.
      - intros (leaf & root' & H1 & [= <-] & H2). exists leaf. auto. }
    assert (Hdec : deposit_proven E (laid base vs r e1' k) d \/ ~ deposit_proven E (laid base vs r e1' k) d).
    { unfold deposit_proven. destruct (htr E (ODepositData (dep_data d))) as [leaf|]; [|right; intros (l & H & _); discriminate H].
      destruct (merkle_branch_ok E leaf (dep_proof d) 33 (eth1_deposit_index (laid base vs r e1' k)) (e1_deposit_root (eth1_data (laid base vs r e1' k)))) eqn:Hm; [left; eauto|right; intros (l & [= <-] & H); congruence]. }
    destruct Hdec as [Hyes|Hno].
    + destruct (S2 Hyes) as (vs' & r' & Hrun & Hr' & Hfr'). rewrite (run_bind _ _ _ _ _ Hrun).
      destruct (IH (pre ++ [d]) vs' r' e1' (k + 1)) as [I1 I2].
      * rewrite map_app. exact Hr'.
      * exact Hfr'.
      * rewrite lenN_app. change (lenN [d]) with 1. lia.
      * rewrite <- Happ. exact Hlen.
      * rewrite <- Happ. exact Hsum.
      * rewrite map_app in I1, I2. cbn [map] in I1, I2. rewrite <- Happ in I1, I2. split.
        -- intros (i & d' & Hi & Hn & Hp). apply I1. exists i, d'. split; [|auto]. destruct (N.eq_dec i k) as [->|]; [|lia]. rewrite Hnth in Hn. injection Hn as <-. exfalso. apply Hp, Hpk, Hyes.
        -- intros Hall. destruct I2 as (vs2 & r2 & root2 & J1 & J2 & J3 & J4 & J5); [intros i d' Hi; apply Hall; lia|]. exists vs2, r2, root2. split; [exact J1|]. split; [exact J2|]. split; [exact J3|]. split; [discriminate|]. intros _.
           destruct ds as [|d2 ds]; [|apply J5; discriminate]. rewrite J4 by reflexivity. cbn [e1' e1_deposit_root]. unfold e1'. cbn [e1_deposit_root]. rewrite map_app. cbn [map]. exact Hroot.
    + destruct (S1 Hno) as [Hrej _]. split.
      * intros _. unfold sbind at 1. destruct (process_deposit E f d (laid base vs r e1' k)) as [[]]; cbn [fst] in Hrej; try reflexivity. discriminate Hrej.
      * intros Hall. exfalso. apply Hno, Hpk. apply Hall; [lia|exact Hnth].
Qed.

(** the activations *)
Lemma activation_run base vs r e1 k : Forall2 fresh vs r ->
  sfor (rangeN (lenN vs)) (genesis_activation_step E) (laid base vs r e1 k) = (Ok tt, laid base (map (genesis_validator E) r) r e1 k).
Proof.
  intros Hfr. pose proof (Forall2_len _ _ _ Hfr) as Hlen.
  set (t := fun c : list Validator => laid base c r e1 k).
  assert (Hinc : 1 <= EFFECTIVE_BALANCE_INCREMENT E) by (clear - Hctx; ctxs Hctx; lia).
  pose (h := fun (i : N) (v : Validator) => match nthN r i with Some e => genesis_validator E e | None => v end).
  assert (Hbase : forall c, laid base c r e1 k = set_validators c (laid base [] r e1 k)) by (intros c; symmetry; apply laid_set_validators).
  destruct (column_loop set_validators (genesis_activation_step E) h (laid base [] r e1 k) (rangeN (lenN vs)) vs) as (c' & Hrun & Hl & Hin & _).
  - apply NoDup_rangeN.
  - intros i Hi. apply In_rangeN in Hi. exact Hi.
  - intros i v c Hi Hcl Hn Hn0. rewrite <- !Hbase. apply In_rangeN in Hi. destruct (nthN_lt r i) as [e He]; [lia|].
    assert (Hv : exists a, v = new_record E f (en_key e) (en_credentials e) a).
    { clear - Hfr Hn0 He. revert i Hn0 He. induction Hfr as [|v0 e0 vs r H0 _ IH]; intros i Hn He; [discriminate|]. cbn [nthN] in *. destruct (i =? 0); [injection Hn as <-; injection He as <-; exact H0|eapply IH; eassumption]. }
    destruct Hv as [a ->]. unfold genesis_activation_step.
    assert (Hbi : nthN (balances (laid base c r e1 k)) i = Some (en_balance e)). { rewrite laid_balances, nthN_map, He. reflexivity. }
    rewrite (run_rd _ _ _ (en_balance e)).
    2: { unfold idx. rewrite Hbi, laid_validators, Hn. reflexivity. }
    set (b := en_balance e) in *. set (q := b / EFFECTIVE_BALANCE_INCREMENT E * EFFECTIVE_BALANCE_INCREMENT E).
    assert (Hq : b - b mod EFFECTIVE_BALANCE_INCREMENT E = q).
    { assert (H : b = EFFECTIVE_BALANCE_INCREMENT E * (b / EFFECTIVE_BALANCE_INCREMENT E) + b mod EFFECTIVE_BALANCE_INCREMENT E) by (apply N.div_mod; lia).
      unfold q. set (x := b / _) in *. set (y := b mod _) in *. clearbody x y. rewrite (N.mul_comm x). lia. }
    rewrite (run_lift _ _ _ q).
    2: { rewrite umod_ok by lia. cbn [rbind]. unfold sub. rewrite usub_ok by (apply N.mod_le; lia). rewrite Hq. reflexivity. }
    cbv zeta.
    assert (Hmod : forall c g v, nthN c i = Some v -> mod_validator i g (laid base c r e1 k) = (Ok tt, laid base (updN c i (g v)) r e1 k)).
    { intros c0 g v Hc0. rewrite (mod_validator_ok _ i g v) by (rewrite laid_validators; exact Hc0). rewrite laid_validators, laid_set_validators. reflexivity. }
    rewrite (run_bind _ _ _ _ _ (Hmod c _ _ Hn)).
    assert (Hi' : i < lenN c) by lia. assert (Hh : h i (new_record E f (en_key e) (en_credentials e) a) = genesis_validator E e) by (unfold h; rewrite He; reflexivity). rewrite Hh.
    unfold genesis_validator, genesis_effective. fold b q. cbv zeta. destruct (N.min q (MAX_EFFECTIVE_BALANCE E) =? MAX_EFFECTIVE_BALANCE E) eqn:Hm.
    + rewrite swhen_true. rewrite (Hmod _ _ _ (nthN_updN_eq c i _ Hi')). rewrite updN_updN. reflexivity.
    + rewrite swhen_false. reflexivity.
  - rewrite <- !Hbase in Hrun. rewrite Hrun. f_equal. f_equal. apply nthN_ext. intros i. destruct (N.lt_ge_cases i (lenN vs)) as [Hi|Hi]; [|rewrite !(proj2 (nthN_none _ _)) by (rewrite ?lenN_map; lia); reflexivity]. destruct (nthN_lt vs i) as [v Hv]; [lia|]. destruct (nthN_lt r i) as [e He]; [lia|].
    rewrite (Hin i v) by (try apply In_rangeN; auto; lia). unfold h. rewrite nthN_map, He. reflexivity.
Qed.
End WithEnv.
