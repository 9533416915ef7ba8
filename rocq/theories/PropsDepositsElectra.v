(** * Property theorems: electra deposits and deposit receipts (C99, and the general form of the C27 findings) *)
From Verif Require Import Base BaseLemmas Types Ctx Presets Env Helpers HelpersAltair HelpersElectra Block StLemmas
  SpecCommon SpecShuffle SpecHelpers SpecElectra SpecOps SpecBlock SpecAtt SpecEpoch SpecUpgrade SpecFlow SpecQueues
  HelperProofs HelperProofs2 OpsProofs AttProofs FlowProofs UpgradeProofs QueueProofs Toy ToyCtx Toy2 Toy3 PropsAtt PropsFlow PropsQueues.

(** the state after [amount] was put at the end of the deposit queue for validator [i] *)
Definition deposit_queued (i amount : N) (s : BeaconState) : BeaconState :=
  set_pending_balance_deposits (pending_balance_deposits s ++ [mkPBD i amount]) s.
(** the state after validator [i] took compounding credentials, which queues what it holds above the activation balance *)
Definition made_compounding (E : Env) (i : N) (v : Validator) (b : N) (s : BeaconState) : BeaconState :=
  set_pending_balance_deposits (pending_balance_deposits s ++ (if MIN_ACTIVATION_BALANCE E <? b then [mkPBD i (b - MIN_ACTIVATION_BALANCE E)] else []))
    (set_balances (updN (balances s) i (N.min b (MIN_ACTIVATION_BALANCE E)))
      (set_validators (updN (validators s) i (set_v_withdrawal_credentials (2 :: skipn 1 (v_withdrawal_credentials v)) v)) s)).
(** a deposit of [amount] for [pk] with credentials [wc] turns [s] into [s'] *)
Inductive electra_deposit (E : Env) (pk wc : bytes) (amount : N) (s : BeaconState) : BeaconState -> Prop :=
| known_key i v b : key_holder s pk i -> nthN (validators s) i = Some v -> nthN (balances s) i = Some b ->
    hd_error wc = Some 2 -> kind_is 1 v = true ->
    electra_deposit E pk wc amount s (made_compounding E i v b (deposit_queued i amount s))
| known_key_same_kind i v : key_holder s pk i -> nthN (validators s) i = Some v -> (hd_error wc <> Some 2 \/ kind_is 1 v = false) ->
    electra_deposit E pk wc amount s (deposit_queued i amount s)
| new_key : key_unknown s pk ->
    electra_deposit E pk wc amount s (deposit_queued (lenN (validators s)) amount (with_validator Electra (new_record E Electra pk wc amount) 0 s)).

Lemma queued_one i a j : queued_for [mkPBD i a] j = if i =? j then a else 0.
Proof. unfold queued_for. cbn [filter pbd_index]. destruct (i =? j); cbn [map pbd_amount]; [rewrite sumN_cons|]; change (sumN []) with 0; lia. Qed.
Lemma total_one i a : queue_total [mkPBD i a] = a.
Proof. unfold queue_total. cbn [map pbd_amount]. rewrite sumN_cons. change (sumN []) with 0. lia. Qed.
Section Apply.
Variable E : Env.
Lemma valid_sig_cases pk wc a sg : (exists dom, deposit_domain E dom) ->
  (deposit_signed E pk wc a sg /\ is_valid_deposit_signature E pk wc a sg = Ok tt)
  \/ (~ deposit_signed E pk wc a sg /\ exists e, is_valid_deposit_signature E pk wc a sg = Err e).
Proof.
  intros (dom & Hd). unfold is_valid_deposit_signature. pose proof Hd as Ho. apply deposit_domain_ok in Ho. rewrite Ho. cbn [rbind].
  exact (deposit_sig_cases E pk wc a sg dom Hd).
Qed.
Lemma compounding_head wc : is_compounding_withdrawal_credential wc = true <-> hd_error wc = Some 2.
Proof.
  unfold is_compounding_withdrawal_credential. destruct wc as [|c wc]; cbn [hd_error]; [split; discriminate|].
  change COMPOUNDING_WITHDRAWAL_PREFIX with 2. rewrite N.eqb_eq. split; [intros ->; reflexivity|intros [= H]; exact H].
Qed.
Lemma compounded_made i v b s : nthN (validators s) i = Some v -> nthN (balances s) i = Some b -> kind_is 1 v = true -> compounded E i s = made_compounding E i v b s.
Proof.
  intros Hv Hb Hk. unfold compounded, made_compounding. rewrite Hv, Hb, Hk. cbv zeta. destruct (N.ltb_spec (MIN_ACTIVATION_BALANCE E) b).
  - rewrite N.min_r by lia. reflexivity.
  - rewrite N.min_l by lia. rewrite app_nil_r, (updN_id (balances s) i b Hb). destruct s; reflexivity.
Qed.
Lemma apply_deposit_late pk wc a sg s : lenN (balances s) = lenN (validators s) -> (exists dom, deposit_domain E dom) ->
  (deposit_signed E pk wc a sg -> exists s', apply_deposit_electra E pk wc a sg s = (Ok tt, s') /\ electra_deposit E pk wc a s s')
  /\ (~ deposit_signed E pk wc a sg -> is_ok (fst (apply_deposit_electra E pk wc a sg s)) = false).
Proof.
  intros Hlen Hdom. unfold apply_deposit_electra. rewrite (run_rd _ _ _ (position_pk pk (validators s) 0)) by reflexivity.
  destruct (position_pk pk (validators s) 0) as [i|] eqn:Hp.
  - apply holder_position in Hp. pose proof Hp as [Hk _]. unfold key_of in Hk. destruct (nthN (validators s) i) as [v|] eqn:Hv; [|discriminate].
    assert (Hi : i < lenN (balances s)) by (rewrite Hlen; eapply nthN_some; eauto). destruct (nthN_lt _ _ Hi) as [b Hb].
    rewrite run_md. destruct (valid_sig_cases pk wc a sg Hdom) as [[Hs Hr]|[Hs [e Hr]]]; rewrite Hr.
    + split; [|contradiction]. intros _. rewrite (run_lift _ _ _ tt) by reflexivity. fold (deposit_queued i a s). set (q := deposit_queued i a s).
      rewrite (run_rd _ _ _ v) by (apply idx_ok; exact Hv).
      destruct (is_compounding_withdrawal_credential wc) eqn:Hc; [rewrite eth1_kind; destruct (kind_is 1 v) eqn:H1|]; cbn [andb swhen].
      * exists (compounded E i q). split; [apply compounded_run; [exact Hlen|unfold q, deposit_queued; gs; eapply nthN_some; exact Hv]|].
        rewrite (compounded_made i v b q Hv Hb H1). apply known_key; try assumption. apply compounding_head. exact Hc.
      * exists q. split; [reflexivity|]. apply known_key_same_kind with v; auto.
      * exists q. split; [reflexivity|]. apply known_key_same_kind with v; auto. left. intros H. apply compounding_head in H. congruence.
    + split; [contradiction|]. intros _. reflexivity.
  - apply unknown_position in Hp. destruct (valid_sig_cases pk wc a sg Hdom) as [[Hs Hr]|[Hs [e Hr]]]; rewrite Hr.
    + split; [|contradiction]. intros _. rewrite (run_lift _ _ _ tt) by reflexivity. eexists. split; [|exact (new_key E pk wc a s Hp)]. cbn [add_validator_to_registry]. unfold md, deposit_queued, with_validator. gs. reflexivity.
    + split; [contradiction|]. intros _. reflexivity.
Qed.
Lemma proven_dec s d : deposit_proven E s d \/ ~ deposit_proven E s d.
Proof.
  unfold deposit_proven. destruct (htr E (ODepositData (dep_data d))) as [leaf|]; [|right; intros (l & H & _); discriminate].
  destruct (merkle_branch_ok E leaf (dep_proof d) 33 (eth1_deposit_index s) (e1_deposit_root (eth1_data s))) eqn:Hm; [left; eauto|].
  right. intros (l & [= <-] & H). congruence.
Qed.
End Apply.

(** ** C99: electra queues deposits *)
Theorem C99_deposit : forall (E : Env) (d : Deposit) (s : BeaconState),
  lenN (balances s) = lenN (validators s) -> eth1_deposit_index s + 1 < 2 ^ 64 -> (exists dom, deposit_domain E dom) ->
  let pk := dd_public_key (dep_data d) in let wc := dd_withdrawal_credentials (dep_data d) in
  let amount := dd_amount (dep_data d) in let sig := dd_signature (dep_data d) in
  (deposit_proven E s d /\ deposit_signed E pk wc amount sig ->
     exists s', process_deposit E Electra d s = (Ok tt, s') /\ electra_deposit E pk wc amount (with_deposit_counted s) s')
  /\ (~ (deposit_proven E s d /\ deposit_signed E pk wc amount sig) -> is_ok (fst (process_deposit E Electra d s)) = false).
Proof.
  intros E d s Hl Hi Hd pk wc amount sig. destruct (deposit_guard E Electra d s Hi) as [G1 G2].
  destruct (apply_deposit_late E pk wc amount sig (with_deposit_counted s) Hl Hd) as [A1 A2]. split.
  - intros [Hp Hs]. rewrite (G1 Hp). exact (A1 Hs).
  - intros Hn. destruct (proven_dec E s d) as [Hp|Hp]; [|exact (proj1 (G2 Hp))]. rewrite (G1 Hp). apply A2. auto.
Qed.
(** The execution layer's receipts take the same path, without a Merkle proof and without counting; the first one fixes the start index. *)
Theorem C99_receipt : forall (E : Env) (r : DepositReceipt) (s : BeaconState),
  lenN (balances s) = lenN (validators s) -> (exists dom, deposit_domain E dom) ->
  let pk := dr_public_key r in let wc := dr_withdrawal_credentials r in let amount := dr_amount r in
  let s0 := if deposit_receipts_start_index s =? 2 ^ 64 - 1 then set_deposit_receipts_start_index (dr_index r) s else s in
  (deposit_signed E pk wc amount (dr_signature r) -> exists s', process_deposit_receipt E r s = (Ok tt, s') /\ electra_deposit E pk wc amount s0 s')
  /\ (~ deposit_signed E pk wc amount (dr_signature r) -> is_ok (fst (process_deposit_receipt E r s)) = false).
Proof.
  intros E r s Hl Hd pk wc amount s0. unfold process_deposit_receipt. rewrite run_md. change UNSET_DEPOSIT_RECEIPTS_START_INDEX with (2 ^ 64 - 1). fold s0.
  apply (apply_deposit_late E pk wc amount (dr_signature r) s0); [|exact Hd]. unfold s0. destruct (_ =? _); exact Hl.
Qed.
(** Whatever the case, balances and queue together grow by exactly the amount, nobody's balance goes up, no effective balance changes, and
    the amount waits in the queue for the validator that holds the key afterwards. *)
Theorem C99_accounting : forall (E : Env) (pk wc : bytes) (amount : N) (s s' : BeaconState),
  lenN (balances s) = lenN (validators s) -> electra_deposit E pk wc amount s s' ->
  sumN (balances s') + queue_total (pending_balance_deposits s') = sumN (balances s) + queue_total (pending_balance_deposits s) + amount
  /\ lenN (balances s') = lenN (validators s') /\ lenN (validators s) <= lenN (validators s')
  /\ (forall i b', nthN (balances s') i = Some b' -> b' <= match nthN (balances s) i with Some b => b | None => 0 end)
  /\ (forall i v, nthN (validators s) i = Some v -> exists wc', nthN (validators s') i = Some (set_v_withdrawal_credentials wc' v))
  /\ (exists i, key_holder s' pk i
        /\ (queued_for (pending_balance_deposits s') i + balance_at s' i = queued_for (pending_balance_deposits s) i + balance_at s i + amount)
        /\ forall j, j <> i -> queued_for (pending_balance_deposits s') j = queued_for (pending_balance_deposits s) j /\ nthN (balances s') j = nthN (balances s) j).
Proof.
  intros E pk wc amount s s' Hl H. destruct H as [i v b Hk Hv Hb Hc H1|i v Hk Hv Hc|Hu].
  - assert (Hiv : i < lenN (validators s)) by (eapply nthN_some; eauto). assert (Hib : i < lenN (balances s)) by lia.
    unfold made_compounding, deposit_queued, balance_at. gs. set (m := MIN_ACTIVATION_BALANCE E). clearbody m.
    assert (Hx : queue_total (if m <? b then [mkPBD i (b - m)] else []) = b - m).
    { destruct (N.ltb_spec m b); [unfold queue_total; cbn [map pbd_amount]; rewrite sumN_cons|]; change (sumN []) with 0; change (queue_total []) with 0; lia. }
    assert (Hy : forall j, queued_for (if m <? b then [mkPBD i (b - m)] else []) j = if i =? j then b - m else 0).
    { intros j. destruct (N.ltb_spec m b); [rewrite queued_one; reflexivity|]. change (queued_for [] j) with 0. destruct (i =? j); lia. }
    set (x := if m <? b then _ else _) in *. clearbody x.
    split; [|split; [|split; [|split; [|split]]]].
    + rewrite !queue_total_app, Hx, total_one. pose proof (sum_updN (balances s) i b (N.min b m) Hb). lia.
    + rewrite !lenN_updN. exact Hl.
    + rewrite lenN_updN. lia.
    + intros j b'. destruct (N.eqb_spec i j) as [<-|Hne]; [rewrite nthN_updN_eq by exact Hib; rewrite Hb; intros [= <-]; lia|].
      rewrite nthN_updN_ne by congruence. intros ->. lia.
    + intros j w Hw. destruct (N.eqb_spec i j) as [<-|Hne]; [rewrite nthN_updN_eq by exact Hiv; rewrite Hv in Hw; injection Hw as <-; eauto|].
      rewrite nthN_updN_ne by congruence. exists (v_withdrawal_credentials w). rewrite Hw. destruct w; reflexivity.
    + exists i. split; [|split].
      * destruct Hk as [K1 K2]. split; [|intros j Hj]; unfold key_of in *; gs.
        -- rewrite nthN_updN_eq by exact Hiv. rewrite Hv in K1. exact K1.
        -- rewrite nthN_updN_ne by lia. exact (K2 j Hj).
      * rewrite nthN_updN_eq by exact Hib. rewrite Hb, !queued_app, Hy, queued_one, N.eqb_refl. lia.
      * intros j Hj. rewrite nthN_updN_ne by congruence. rewrite !queued_app, Hy, queued_one. destruct (N.eqb_spec i j); [congruence|]. split; [lia|reflexivity].
  - unfold deposit_queued, balance_at. gs. split; [|split; [|split; [|split; [|split]]]].
    + rewrite queue_total_app, total_one. lia.
    + exact Hl.
    + lia.
    + intros j b' ->. lia.
    + intros j w Hw. exists (v_withdrawal_credentials w). rewrite Hw. destruct w; reflexivity.
    + exists i. split; [exact Hk|]. split; [rewrite queued_app, queued_one, N.eqb_refl; lia|].
      intros j Hj. rewrite queued_app, queued_one. destruct (N.eqb_spec i j); [congruence|]. split; [lia|reflexivity].
  - unfold deposit_queued, with_validator, balance_at. gs. set (w := new_record E Electra pk wc amount).
    assert (Hwk : v_public_key w = pk) by reflexivity. clearbody w. split; [|split; [|split; [|split; [|split]]]].
    + rewrite queue_total_app, total_one, sumN_app, sumN_cons. change (sumN []) with 0. lia.
    + rewrite !lenN_app, Hl. reflexivity.
    + rewrite lenN_app. lia.
    + intros j b' Hj. destruct (N.ltb_spec j (lenN (balances s))).
      * rewrite nthN_app_l in Hj by assumption. rewrite Hj. lia.
      * rewrite nthN_app_r in Hj by assumption. apply nthN_In in Hj. destruct Hj as [<-|[]]. apply N.le_0_l.
    + intros j x Hx. exists (v_withdrawal_credentials x). rewrite nthN_app_l by (eapply nthN_some; eauto). rewrite Hx. destruct x; reflexivity.
    + exists (lenN (validators s)). split; [|split].
      * split; [|intros j Hj]; unfold key_of; gs.
        -- rewrite nthN_app_r, N.sub_diag by lia. change (nthN [w] 0) with (Some w). cbn [option_map]. rewrite Hwk. reflexivity.
        -- rewrite nthN_app_l by exact Hj. exact (Hu j).
      * rewrite queued_app, queued_one, N.eqb_refl. rewrite <- Hl, nthN_app_r, N.sub_diag by lia. rewrite (proj2 (nthN_none (balances s) _)) by lia. change (nthN [0] 0) with (Some 0). cbv beta iota. lia.
      * intros j Hj. rewrite queued_app, queued_one. destruct (N.eqb_spec (lenN (validators s)) j); [congruence|]. split; [lia|].
        destruct (N.ltb_spec j (lenN (balances s))); [apply nthN_app_l; assumption|]. rewrite !(proj2 (nthN_none _ _)); [reflexivity|lia|rewrite lenN_app; change (lenN [0]) with 1; lia].
Qed.
(** examples: a top-up with compounding credentials by validator 1 (kind 1, 3 ETH above the activation balance), and a new key by receipt *)
Definition deposit_toy (pk : bytes) (wc : bytes) (amount : N) : DepositData :=
  let m := mkDepMsg pk wc amount in
  mkDepData pk wc amount (match compute_domain tiny DDeposit None None with Ok dom => toy_sign pk (tiny_signing_root dom (ODepositMessage m)) | _ => [] end).
Definition topup_toy : Deposit := mkDeposit [] (deposit_toy (toy_pk 1) (2 :: repeat 0 31) 5).
Definition receipt_toy : DepositReceipt :=
  let d := deposit_toy (toy_pk 9) (1 :: repeat 0 31) 32000000000 in
  mkReceipt (dd_public_key d) (dd_withdrawal_credentials d) (dd_amount d) (dd_signature d) 77.
Example C99_example : let s := set_deposit_receipts_start_index (2 ^ 64 - 1) consolidate_toy in
  lenN (balances s) = lenN (validators s) /\ eth1_deposit_index s + 1 < 2 ^ 64 /\ (exists dom, deposit_domain tiny dom)
  /\ deposit_proven tiny s topup_toy /\ key_holder s (toy_pk 1) 1 /\ key_unknown s (toy_pk 9)
  /\ (let '(r, s') := process_deposit tiny Electra topup_toy s in
      r = Ok tt /\ pending_balance_deposits s' = [mkPBD 1 5; mkPBD 1 3000000000] /\ balance_at s 1 = 35000000000 /\ balance_at s' 1 = 32000000000)
  /\ (let '(r, s') := process_deposit_receipt tiny receipt_toy s in
      r = Ok tt /\ pending_balance_deposits s' = [mkPBD (lenN (validators s)) 32000000000] /\ deposit_receipts_start_index s' = 77
      /\ balance_at s' (lenN (validators s)) = 0 /\ lenN (balances s') = lenN (balances s) + 1).
Proof.
  cbv zeta. split; [vm_compute; reflexivity|]. split; [vm_compute; reflexivity|]. split; [eexists; apply deposit_domain_ok; vm_compute; reflexivity|].
  split; [eexists; split; vm_compute; reflexivity|]. split; [apply holder_position; vm_compute; reflexivity|]. split; [apply unknown_position; vm_compute; reflexivity|].
  split; vm_compute; repeat split; reflexivity.
Qed.

Print Assumptions C99_deposit.
Print Assumptions C99_receipt.
Print Assumptions C99_accounting.
