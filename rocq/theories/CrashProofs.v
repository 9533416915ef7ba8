(** * Proofs that block processing does not crash (proof file; no model definitions) *)
From Verif Require Import Base BaseLemmas Types Ctx Env Helpers HelpersAltair HelpersElectra Block Epoch Transition StLemmas
  SpecCommon SpecShuffle SpecHelpers SpecElectra SpecOps SpecBlock SpecAtt SpecFlow SpecFinality SpecSlots SpecEpoch SpecRegistry SpecQueues SpecPhase0 SpecTotal SpecCrash
  ShuffleProofs HelperProofs HelperProofs2 OpsProofs ElectraProofs SlashProofs AttProofs BlockProofs FlowProofs FinalityProofs EpochProofs RegistryProofs RewardProofs PeriodicProofs QueueProofs SlotProofs Phase0Proofs TotalProofs.

(** ** a small calculus: [np r Q] = [r] is not a panic, and if it is [Ok a] then [Q a] *)
Definition np {A} (r : res A) (Q : A -> Prop) : Prop := match r with Ok a => Q a | Panic => False | _ => True end.
Lemma np_ok {A} (a : A) (Q : A -> Prop) : Q a -> np (Ok a) Q. Proof. exact (fun H => H). Qed.
Lemma np_imp {A} (r : res A) (P Q : A -> Prop) : np r P -> (forall a, P a -> Q a) -> np r Q.
Proof. unfold np. destruct r; auto. Qed.
Lemma np_bind {A B} (r : res A) (k : A -> res B) (P : A -> Prop) (Q : B -> Prop) : np r P -> (forall a, P a -> np (k a) Q) -> np (rbind r k) Q.
Proof. intros H1 H2. destruct r; cbn in *; auto. Qed.
Lemma np_eq {A} (r : res A) a (Q : A -> Prop) : r = Ok a -> Q a -> np r Q. Proof. intros ->. auto. Qed.
Lemma np_require c e (Q : unit -> Prop) : (c = true -> Q tt) -> np (require c e) Q.
Proof. unfold require. destruct c; cbn; auto. Qed.
Lemma np_ok_or {A} (o : option A) e (Q : A -> Prop) : (forall a, o = Some a -> Q a) -> np (ok_or o e) Q.
Proof. destruct o; cbn; auto. Qed.
Lemma np_map_err {A} (r : res A) e Q : np r Q -> np (map_err r e) Q. Proof. destruct r; cbn; auto. Qed.
Lemma np_idx {A} (l : list A) i (Q : A -> Prop) : i < lenN l -> (forall x, nthN l i = Some x -> Q x) -> np (idx l i) Q.
Proof. intros Hi H. destruct (nthN_lt l i Hi) as [x Hx]. apply (np_eq _ x); [apply idx_ok; exact Hx|auto]. Qed.
Lemma np_getN {A} (l : list A) i e (Q : A -> Prop) : (forall x, nthN l i = Some x -> Q x) -> np (getN l i e) Q.
Proof. intros H. unfold getN, ok_or. destruct (nthN l i) eqn:Hx; cbn; auto. Qed.
Lemma np_rmap {A B} (g : A -> res B) l (P : A -> B -> Prop) : (forall x, In x l -> np (g x) (P x)) -> np (rmap g l) (fun ys => Forall2 P l ys).
Proof.
  induction l as [|x l IH]; intros H; cbn [rmap]; [constructor|]. apply (np_bind _ _ (P x)); [apply H; left; reflexivity|]. intros y Hy.
  apply (np_bind _ _ (fun ys => Forall2 P l ys)); [apply IH; intros z Hz; apply H; right; exact Hz|]. intros ys Hys. constructor; assumption.
Qed.

Lemma np_req {B} c e (k : unit -> res B) Q : (c = true -> np (k tt) Q) -> np (rbind (require c e) k) Q.
Proof. unfold require. destruct c; cbn; auto. Qed.
Lemma np_skip {A B} (r : res A) (k : A -> res B) Q : np r (fun _ => True) -> (forall a, np (k a) Q) -> np (rbind r k) Q.
Proof. intros H1 H2. eapply np_bind; [exact H1|auto]. Qed.
Definition safe {A} (P : BeaconState -> Prop) (m : St BeaconState A) (Q : A -> BeaconState -> Prop) : Prop :=
  forall s, P s -> match m s with (Ok a, s') => Q a s' | (Panic, _) => False | _ => True end.
Lemma safe_bind {A B} P (m : St BeaconState A) (k : A -> St BeaconState B) R Q : safe P m R -> (forall a, safe (R a) (k a) Q) -> safe P (sbind m k) Q.
Proof.
  intros Hm Hk s Hs. specialize (Hm s Hs). unfold sbind. destruct (m s) as [[a|e| |] s']; auto. exact (Hk a s' Hm).
Qed.
Lemma safe_ret {A} (P : BeaconState -> Prop) (a : A) (Q : A -> BeaconState -> Prop) : (forall s, P s -> Q a s) -> safe P (sret a) Q.
Proof. intros H s Hs. exact (H s Hs). Qed.
Lemma safe_rd {A} (P : BeaconState -> Prop) (r : BeaconState -> res A) (Q : A -> BeaconState -> Prop) : (forall s, P s -> np (r s) (fun a => Q a s)) -> safe P (rd r) Q.
Proof. intros H s Hs. specialize (H s Hs). unfold rd, np in *. destruct (r s); auto. Qed.
Lemma safe_lift {A} (P : BeaconState -> Prop) (r : res A) (Q : A -> BeaconState -> Prop) : (forall s, P s -> np r (fun a => Q a s)) -> safe P (lift r) Q.
Proof. intros H s Hs. specialize (H s Hs). unfold lift, np in *. destruct r; auto. Qed.
Lemma safe_md (P : BeaconState -> Prop) g (Q : unit -> BeaconState -> Prop) : (forall s, P s -> Q tt (g s)) -> safe P (md g) Q.
Proof. intros H s Hs. exact (H s Hs). Qed.
Lemma safe_imp {A} (P P' : BeaconState -> Prop) (m : St BeaconState A) (Q Q' : A -> BeaconState -> Prop) :
  safe P m Q -> (forall s, P' s -> P s) -> (forall a s, Q a s -> Q' a s) -> safe P' m Q'.
Proof. intros H H1 H2 s Hs. specialize (H s (H1 s Hs)). destruct (m s) as [[a|e| |] s']; auto. Qed.
Lemma safe_when (P : BeaconState -> Prop) c m (Q : unit -> BeaconState -> Prop) : (c = true -> safe P m Q) -> (c = false -> forall s, P s -> Q tt s) -> safe P (swhen c m) Q.
Proof. intros H1 H2. unfold swhen. destruct c; [auto|]. apply safe_ret. auto. Qed.
Lemma safe_run {A} (P : BeaconState -> Prop) (m : St BeaconState A) (Q : A -> BeaconState -> Prop) :
  (forall s, P s -> exists a s', m s = (Ok a, s') /\ Q a s') -> safe P m Q.
Proof. intros H s Hs. destruct (H s Hs) as (a & s' & -> & HQ). exact HQ. Qed.
Lemma safe_rdX {A B} (P : BeaconState -> Prop) (r : BeaconState -> res A) (k : A -> St BeaconState B) (X : A -> Prop) Q :
  (forall s, P s -> np (r s) X) -> (forall a, X a -> safe P (k a) Q) -> safe P (sbind (rd r) k) Q.
Proof.
  intros H1 H2 s Hs. specialize (H1 s Hs). unfold sbind, rd. destruct (r s) as [a|e| |]; cbn in H1; auto. exact (H2 a H1 s Hs).
Qed.
Lemma safe_liftX {A B} (P : BeaconState -> Prop) (r : res A) (k : A -> St BeaconState B) (X : A -> Prop) Q :
  np r X -> (forall a, X a -> safe P (k a) Q) -> safe P (sbind (lift r) k) Q.
Proof. intros H1 H2 s Hs. unfold sbind, lift. destruct r as [a|e| |]; cbn in H1; auto. exact (H2 a H1 s Hs). Qed.
Lemma safe_seq {A B} P (m : St BeaconState A) (k : A -> St BeaconState B) R Q : safe P m (fun _ => R) -> (forall a, safe R (k a) Q) -> safe P (sbind m k) Q.
Proof. intros H1 H2. eapply safe_bind; [exact H1|]. exact H2. Qed.
Lemma safe_pre {A} (P P' : BeaconState -> Prop) (m : St BeaconState A) (Q : A -> BeaconState -> Prop) : (forall s, P' s -> P s) -> safe P m Q -> safe P' m Q.
Proof. intros H1 H. eapply safe_imp; [exact H|exact H1|auto]. Qed.
(** a loop whose body, run on [x], spends [c x] of the budget *)
Lemma safe_for {X} (I : N -> BeaconState -> Prop) (c : X -> N) (body : X -> St BeaconState unit) : forall l k,
  (forall x m, In x l -> safe (I (m + c x)) (body x) (fun _ => I m)) -> safe (I (k + sumN (map c l))) (sfor l body) (fun _ => I k).
Proof.
  induction l as [|x l IH]; intros k H; cbn [sfor map].
  - apply safe_ret. intros s. change (sumN []) with 0. rewrite N.add_0_r. auto.
  - rewrite sumN_cons. replace (k + (c x + sumN (map c l))) with (k + sumN (map c l) + c x) by lia.
    eapply safe_bind; [apply H; left; reflexivity|]. intros u. cbv beta. apply IH. intros y m Hy. apply H. right. exact Hy.
Qed.
Lemma safe_fold {X B} (I : B -> N -> BeaconState -> Prop) (c : X -> N) (body : B -> X -> St BeaconState B) : forall l k b,
  (forall b x m, In x l -> safe (I b (m + c x)) (body b x) (fun b' => I b' m)) -> safe (I b (k + sumN (map c l))) (sfold body l b) (fun b' => I b' k).
Proof.
  induction l as [|x l IH]; intros k b H; cbn [sfold map].
  - apply safe_ret. intros s. change (sumN []) with 0. rewrite N.add_0_r. auto.
  - rewrite sumN_cons. replace (k + (c x + sumN (map c l))) with (k + sumN (map c l) + c x) by lia.
    eapply safe_bind; [apply H; left; reflexivity|]. intros b'. cbv beta. apply IH. intros b0 y m Hy. apply H. right. exact Hy.
Qed.

Section C.
Variable E : Env.
Hypothesis Hctx : ctx_sane E.
Hypothesis Hwf : hash_wf (hash E).
Hypothesis Hatt : ctx_sane_att E.
Hypothesis Hel : ctx_sane_electra E.
Hypothesis Hm : mainnet_scale E.
Hypothesis Hbs : block_scale E.
Hypothesis Hrw : roots_wide E.
Hypothesis Hfuel : N.of_nat (fuel E) < 2 ^ 60.

Lemma np_add x y (Q : N -> Prop) : x + y < U64 -> Q (x + y) -> np (add E x y) Q.
Proof. intros H. unfold add. rewrite uadd_ok by exact H. auto. Qed.
Lemma np_sub x y (Q : N -> Prop) : y <= x -> Q (x - y) -> np (sub E x y) Q.
Proof. intros H. unfold sub. rewrite usub_ok by exact H. auto. Qed.
Lemma np_mul x y (Q : N -> Prop) : x * y < U64 -> Q (x * y) -> np (mul E x y) Q.
Proof. intros H. unfold mul. rewrite umul_ok by exact H. auto. Qed.
Lemma np_div x y (Q : N -> Prop) : y <> 0 -> Q (x / y) -> np (udiv x y) Q.
Proof. intros H. rewrite udiv_ok by exact H. auto. Qed.
Lemma np_mod x y (Q : N -> Prop) : y <> 0 -> Q (x mod y) -> np (umod x y) Q.
Proof. intros H. rewrite umod_ok by exact H. auto. Qed.
Lemma np_any {A} (r : res A) : np r (fun _ => True) <-> r <> Panic.
Proof. unfold np. destruct r; split; auto; congruence. Qed.

(** ** reads that need nothing *)
Lemma np_htr o (Q : bytes -> Prop) : (forall r, Q r) -> np (htr_r E o) Q.
Proof. intros H. unfold htr_r. apply np_ok_or. intros r Hr. apply H. Qed.
Lemma np_domain0 d v g (Q : bytes -> Prop) : (forall x, Q x) -> np (compute_domain E d v g) Q.
Proof.
  intros H. unfold compute_domain, compute_fork_data_root. eapply np_bind; [unfold htr_r; apply np_ok_or; intros r Hr; exact (Hrw _ _ _ Hr)|]. intros r Hr. cbv beta in Hr.
  unfold slice_to. destruct (N.leb_spec 28 (lenN r)); [|lia]. cbn [rbind]. apply np_ok. apply H.
Qed.
Lemma np_epoch s (Q : N -> Prop) : Q (epoch_of E s) -> np (get_current_epoch E s) Q.
Proof. intros H. rewrite (current_epoch_ok E Hctx). exact H. Qed.
Lemma np_domain s d e (Q : bytes -> Prop) : (forall x, Q x) -> np (get_domain E s d e) Q.
Proof.
  intros H. unfold get_domain. apply (np_bind _ _ (fun _ => True)); [destruct e; [exact I|apply np_epoch; exact I]|]. intros x _. apply np_domain0. exact H.
Qed.
Lemma np_signing o d (Q : bytes -> Prop) : (forall x, Q x) -> np (compute_signing_root E o d) Q.
Proof.
  intros H. unfold compute_signing_root. eapply np_bind; [apply np_htr; intros r; exact I|]. intros r _. apply np_htr. intros r'. apply H.
Qed.
Lemma np_verify o sg pk d (Q : unit -> Prop) : Q tt -> np (verify_signed_data E o sg pk d) Q.
Proof.
  intros H. unfold verify_signed_data, verify_sig. eapply np_bind; [apply np_signing; intros; exact I|]. intros r _. apply np_require. auto.
Qed.
Lemma np_sorted p l d (Q : bool -> Prop) : (forall x, Q x) -> np (check_sorted p l d) Q.
Proof. intros H. revert p d. induction l as [|x l IH]; intros p d; cbn [check_sorted]; [apply H|]. destruct (x <? p); [exact I|apply IH]. Qed.
Lemma np_indexed s ia (Q : unit -> Prop) :
  ((forall i, In i (ia_attesting_indices ia) -> i < lenN (validators s)) -> Q tt) -> np (is_valid_indexed_attestation E s ia) Q.
Proof.
  intros H. unfold is_valid_indexed_attestation. destruct (ia_attesting_indices ia) as [|i0 rest] eqn:Hi; [exact I|]. rewrite <- Hi in *.
  eapply np_bind; [apply np_sorted; intros; exact I|]. intros [] _; [exact I|].
  eapply np_bind; [apply (np_rmap _ _ (fun i _ => i < lenN (validators s)))|].
  { intros i _. eapply np_bind; [apply np_getN; intros x Hx; exact (nthN_some _ _ _ Hx)|]. intros v Hv. exact Hv. }
  intros pks Hp. eapply np_bind; [apply np_domain; intros; exact I|]. intros dom _.
  eapply np_bind; [apply np_signing; intros; exact I|]. intros root _. apply np_require. intros _. apply H.
  clear - Hp. intros i Hin. induction Hp as [|x y l k Hx _ IH]; [destruct Hin|]. destruct Hin as [->|Hin]; auto.
Qed.

(** room for exits: in electra also for [n] partial withdrawals, each of which moves the exit queue by less than 2^33 epochs *)
Definition roomC (f : Fork) (n : N) (s : BeaconState) : Prop :=
  room E f n s /\ (f = Electra -> exit_queue_start E s + staying (validators s) + n * 2 ^ 33 < 2 ^ 62).
Lemma roomC_le f n m s : m <= n -> roomC f n s -> roomC f m s.
Proof. intros Hle [H1 H2]. split; [exact (room_le E f n m s Hle H1)|]. intros Hf. specialize (H2 Hf). change (2 ^ 33) with 8589934592 in *. lia. Qed.

(** ** the invariant: [L] validators, [n] units of 2^42 Gwei (and of exit epochs), [d] deposits and [g] Gwei may still be added *)
Record blk (f : Fork) (L n d g : N) (s : BeaconState) : Prop := mkBlk {
  k_shape : state_shape E s; k_L : lenN (validators s) = L; k_len : L + d <= 2 ^ 40; k_slot : slot_small s; k_pos : 0 < slot s;
  k_al : registry_aligned f s;
  k_eff : forall v, In v (validators s) -> v_effective_balance v <= cap E f;
  k_stake : registered_stake s + d * 2 ^ 41 < 2 ^ 57;
  k_bal : forall b, In b (balances s) -> b + g + n * 2 ^ 42 < 2 ^ 62;
  k_sl : forall x, In x (slashings s) -> x + n * 2 ^ 42 < 2 ^ 62;
  k_room : roomC f n s;
  k_queued : forall v, In v (validators s) -> v_activation_epoch v <> FAR_FUTURE_EPOCH -> v_activation_eligibility_epoch v <= v_activation_epoch v;
  k_com : f <> Phase0 -> committee_registered s /\ lenN (sc_public_keys (current_sync_committee s)) <= SYNC_COMMITTEE_SIZE E;
  k_eth : eth1_deposit_index s + n < 2 ^ 63;
  k_g : g + n * 2 ^ 42 < 2 ^ 62;
  k_pend : f = Electra -> pending_sound s L }.

Lemma cap41 f : cap E f < 2 ^ 41. Proof. pose proof (cap_le E Hm f). pows. lia. Qed.
Lemma blk_le f L n m d g s : m <= n -> blk f L n d g s -> blk f L m d g s.
Proof.
  intros Hle [K1 K2 K3 K4 K5 K6 K7 K8 K9 K10 K11 K12 K13 K14 K15 K16]. constructor; auto.
  - intros b Hb. specialize (K9 b Hb). pows. lia.
  - intros x Hx. specialize (K10 x Hx). pows. lia.
  - exact (roomC_le f n m s Hle K11).
  - lia.
  - pows. lia.
Qed.
Lemma blk_conv f L n d g s k : blk f L (n + k) d g s -> blk f L n d (g + k * 2 ^ 42) s.
Proof.
  intros [K1 K2 K3 K4 K5 K6 K7 K8 K9 K10 K11 K12 K13 K14 K15 K16]. constructor; auto.
  - intros b Hb. specialize (K9 b Hb). pows. lia.
  - intros x Hx. specialize (K10 x Hx). pows. lia.
  - apply (roomC_le f (n + k)); [lia|exact K11].
  - lia.
  - pows. lia.
Qed.
Lemma blk_g f L n d g g' s : g' <= g -> blk f L n d g s -> blk f L n d g' s.
Proof.
  intros Hle [K1 K2 K3 K4 K5 K6 K7 K8 K9 K10 K11 K12 K13 K14 K15 K16]. constructor; auto.
  - intros b Hb. specialize (K9 b Hb). lia.
  - lia.
Qed.

Lemma np_proposer f L n d g s (Q : N -> Prop) : blk f L n d g s -> (forall p, p < L -> Q p) -> np (get_beacon_proposer_index E s) Q.
Proof.
  intros K H. unfold get_beacon_proposer_index. eapply np_bind; [apply np_epoch; exact eq_refl|]. intros e He. cbv beta in He. subst e.
  destruct (seed_ok E Hctx s (epoch_of E s) DBeaconProposer) as (mix & _ & Hsd); [exact (k_shape _ _ _ _ _ _ K)|pose proof (epoch_small E Hctx s (k_slot _ _ _ _ _ _ K)); pows; lia|].
  rewrite Hsd. cbn [rbind]. rewrite get_active_ok. set (seed := hash E _). clearbody seed.
  destruct (active_set s (epoch_of E s)) as [|a0 A0] eqn:HA; [exact I|]. rewrite <- HA.
  destruct (compute_proposer_index_spec E Hctx Hwf s (active_set s (epoch_of E s)) seed) as [(i & r & Hok & _ & Hacc)|[Hdiv _]].
  - rewrite HA. discriminate.
  - pose proof (active_set_le s (epoch_of E s)). destruct K as [_ K2 K3]. pows. lia.
  - intros i v _ Hv. pose proof (k_eff _ _ _ _ _ _ K v (nthN_In _ _ _ Hv)). pose proof (cap41 f). pows. lia.
  - apply active_in_range.
  - exact Hfuel.
  - rewrite Hok. apply H. destruct Hacc as (Hc & _). unfold proposer_candidate in Hc. rewrite <- (k_L _ _ _ _ _ _ K). apply (active_in_range s (epoch_of E s)). exact (nthN_In _ _ _ Hc).
  - rewrite Hdiv. exact I.
Qed.

Lemma blk_balances f L n d g g' s bs : blk f L n d g s -> lenN bs = lenN (balances s) ->
  (forall b, In b bs -> b + g' + n * 2 ^ 42 < 2 ^ 62) -> g' <= g -> blk f L n d g' (set_balances bs s).
Proof.
  intros [K1 K2 K3 K4 K5 K6 K7 K8 K9 K10 K11 K12 K13 K14 K15 K16] Hl Hb Hg. constructor; auto; [|lia].
  destruct K6 as [A1 A2]. split; [gs; congruence|exact A2].
Qed.
Lemma safe_inc f L n d g i a : i < L -> safe (blk f L n d (g + a)) (increase_balance E i a) (fun _ => blk f L n d g).
Proof.
  intros Hi. apply safe_run. intros s K.
  assert (Hib : i < lenN (balances s)) by (destruct (k_al _ _ _ _ _ _ K) as [-> _]; rewrite (k_L _ _ _ _ _ _ K); exact Hi).
  eexists tt, _. split.
  - apply increase_credit; [exact Hib|]. intros b Hb. pose proof (k_bal _ _ _ _ _ _ K b (nthN_In _ _ _ Hb)). rewrite U64_val. pows. lia.
  - apply (blk_balances f L n d (g + a)); [exact K|apply lenN_credit| |lia]. intros b Hb.
    apply In_credit in Hb as [Hb|(b0 & Hb & ->)]; pose proof (k_bal _ _ _ _ _ _ K _ Hb); lia.
Qed.
Lemma safe_dec f L n d g i a : i < L -> safe (blk f L n d g) (decrease_balance E i a) (fun _ => blk f L n d g).
Proof.
  intros Hi. apply safe_run. intros s K.
  assert (Hib : i < lenN (balances s)) by (destruct (k_al _ _ _ _ _ _ K) as [-> _]; rewrite (k_L _ _ _ _ _ _ K); exact Hi).
  eexists tt, _. split; [apply decrease_debit; exact Hib|].
  apply (blk_balances f L n d g); [exact K|apply lenN_debit| |lia]. intros b Hb.
  apply In_debit in Hb as [Hb|(b0 & Hb & ->)]; pose proof (k_bal _ _ _ _ _ _ K _ Hb); lia.
Qed.

(** *** registry changes that keep keys, stake and activation *)
Definition same_core (v v' : Validator) : Prop :=
  v_effective_balance v' = v_effective_balance v /\ v_public_key v' = v_public_key v
  /\ v_activation_epoch v' = v_activation_epoch v /\ v_activation_eligibility_epoch v' = v_activation_eligibility_epoch v.
Lemma core_map {A} (h : Validator -> A) vs vs' : lenN vs' = lenN vs -> (forall v v', same_core v v' -> h v' = h v) ->
  (forall i v, nthN vs i = Some v -> exists v', nthN vs' i = Some v' /\ same_core v v') -> map h vs' = map h vs.
Proof.
  intros Hl Hh H. apply nthN_ext_len; [rewrite !lenN_map; exact Hl|]. intros i x Hx. rewrite nthN_map in *.
  destruct (nthN vs i) as [v|] eqn:Hv; [|discriminate]. injection Hx as <-. destruct (H i v Hv) as (v' & Hv' & Hs). rewrite Hv'. cbn. rewrite (Hh v v' Hs). reflexivity.
Qed.
Lemma blk_registry f L n m d g s q b vs : blk f L n d g s -> m <= n -> lenN vs = L ->
  (forall i v, nthN (validators s) i = Some v -> exists v', nthN vs i = Some v' /\ same_core v v') ->
  roomC f m (set_validators vs (set_earliest_exit_epoch q (set_exit_balance_to_consume b s))) ->
  blk f L m d g (set_validators vs (set_earliest_exit_epoch q (set_exit_balance_to_consume b s))).
Proof.
  intros K Hle Hl Hc Hr. pose proof K as [K1 K2 K3 K4 K5 K6 K7 K8 K9 K10 K11 K12 K13 K14 K15 K16].
  assert (Hl' : lenN vs = lenN (validators s)) by congruence.
  assert (He : map v_effective_balance vs = map v_effective_balance (validators s)) by (apply core_map; [exact Hl'|intros v v' (H & _); exact H|exact Hc]).
  assert (Hk : map v_public_key vs = map v_public_key (validators s)) by (apply core_map; [exact Hl'|intros v v' (_ & H & _); exact H|exact Hc]).
  assert (Ha : map (fun v => (v_activation_epoch v, v_activation_eligibility_epoch v)) vs = map (fun v => (v_activation_epoch v, v_activation_eligibility_epoch v)) (validators s)).
  { apply core_map; [exact Hl'|intros v v' (_ & _ & H1 & H2); congruence|exact Hc]. }
  constructor; gs; auto.
  - destruct K1 as (S1 & S2 & S3 & S4 & S5 & S6). unfold state_shape. gs. rewrite Hl'. auto 6.
  - destruct K6 as [A1 A2]. split; gs; rewrite Hl'; [exact A1|exact A2].
  - intros v Hv. apply (in_map v_effective_balance) in Hv. rewrite He in Hv. apply in_map_iff in Hv as (w & <- & Hw). exact (K7 w Hw).
  - unfold registered_stake. gs. rewrite He. exact K8.
  - intros x Hx. specialize (K9 x Hx). pows. lia.
  - intros x Hx. specialize (K10 x Hx). pows. lia.
  - intros v Hv. apply (in_map (fun v => (v_activation_epoch v, v_activation_eligibility_epoch v))) in Hv. rewrite Ha in Hv.
    apply in_map_iff in Hv as (w & [= <- <-] & Hw). exact (K12 w Hw).
  - intros Hf. destruct (K13 Hf) as [C1 C2]. split; [|exact C2]. intros pk Hpk. gsh Hpk. destruct (C1 pk Hpk) as (w & Hw & Hwk).
    apply (in_map v_public_key) in Hw. rewrite Hwk, <- Hk in Hw. apply in_map_iff in Hw as (w' & Hw' & Hin). exists w'. gs. auto.
  - gs. pows. lia.
  - pows. lia.
Qed.
Lemma blk_vals f L n d g s vs : blk f L n d g s -> lenN vs = L ->
  (forall i v, nthN (validators s) i = Some v -> exists v', nthN vs i = Some v' /\ same_core v v') ->
  roomC f n (set_validators vs s) -> blk f L n d g (set_validators vs s).
Proof.
  intros K Hl Hc Hr. pose proof (blk_registry f L n n d g s (earliest_exit_epoch s) (exit_balance_to_consume s) vs K (N.le_refl n) Hl Hc) as H.
  rewrite set_exit_balance_to_consume_id, set_earliest_exit_epoch_id in H. exact (H Hr).
Qed.
Lemma room_mod f n t i v v' : nthN (validators t) i = Some v -> v_exit_epoch v' = v_exit_epoch v -> v_effective_balance v' = v_effective_balance v ->
  v_activation_epoch v' = v_activation_epoch v -> room E f n t -> room E f n (set_validators (updN (validators t) i v') t).
Proof.
  intros Hv Hx He Ha. set (t' := set_validators _ _).
  assert (Hd : same_duties E t t').
  { apply same_duties_upd with (v := v); [exact Hv|exact He|]. unfold is_active_validator. rewrite Ha, Hx. reflexivity. }
  destruct (Fork_eq_dec f Electra) as [->|Hf].
  - intros (H1 & H2 & H3). destruct (same_duties_churn E t t' Hd) as (_ & Hfit & Hee & _). split; [auto|]. split; [exact H2|].
    unfold exit_queue_start. rewrite Hee. change (earliest_exit_epoch t') with (earliest_exit_epoch t). fold (exit_queue_start E t).
    unfold t'. gs. rewrite (staying_same _ _ v); [exact H3|exact Hv|exact Hx|exact He].
  - rewrite !(room_not_electra E _ _ _ Hf). intros (B & H1 & H2 & H3). exists B. split; [|auto]. intros w Hw Hn. unfold t' in Hw. gsh Hw.
    apply In_updN in Hw as [->|Hw]; [|apply H1; assumption]. rewrite Hx in *. apply H1; [eapply nthN_In; eauto|exact Hn].
Qed.
Lemma roomC_mod f n t i v v' : nthN (validators t) i = Some v -> v_exit_epoch v' = v_exit_epoch v -> v_effective_balance v' = v_effective_balance v ->
  v_activation_epoch v' = v_activation_epoch v -> roomC f n t -> roomC f n (set_validators (updN (validators t) i v') t).
Proof.
  intros Hv Hx He Ha [H1 H2]. split; [apply room_mod with (v := v); assumption|]. intros Hf. specialize (H2 Hf).
  change (exit_queue_start E (set_validators (updN (validators t) i v') t)) with (exit_queue_start E t). gs.
  rewrite (staying_same _ _ v); [exact H2|exact Hv|exact Hx|exact He].
Qed.
Lemma core_upd vs i v v' : nthN vs i = Some v -> same_core v v' ->
  forall j w, nthN vs j = Some w -> exists w', nthN (updN vs i v') j = Some w' /\ same_core w w'.
Proof.
  intros Hv Hs j w Hw. destruct (N.eq_dec i j) as [<-|Hne].
  - rewrite nthN_updN_eq by exact (nthN_some _ _ _ Hv). exists v'. split; [reflexivity|]. congruence.
  - rewrite nthN_updN_ne by exact Hne. exists w. split; [exact Hw|]. repeat split.
Qed.
Lemma safe_mod f L n d g i h : i < L -> (forall v, same_core v (h v) /\ v_exit_epoch (h v) = v_exit_epoch v) ->
  safe (blk f L n d g) (mod_validator i h) (fun _ => blk f L n d g).
Proof.
  intros Hi Hh. apply safe_run. intros s K. destruct (nthN_lt (validators s) i) as [v Hv]; [rewrite (k_L _ _ _ _ _ _ K); exact Hi|].
  eexists tt, _. split; [apply mod_validator_ok; exact Hv|]. destruct (Hh v) as [Hc Hx].
  apply blk_vals; [exact K|rewrite lenN_updN; exact (k_L _ _ _ _ _ _ K)|apply (core_upd _ _ v); assumption|].
  apply roomC_mod with (v := v); [exact Hv|exact Hx|apply Hc|apply Hc|exact (k_room _ _ _ _ _ _ K)].
Qed.
(** an exit moves the queue by no more than the balance that stops staying *)
Lemma roomC_exit f n t i v : slot_small t -> nthN (validators t) i = Some v -> roomC f (n + 1) t ->
  exists t1, initiate_exit E f i t = (Ok tt, t1) /\ roomC f n t1.
Proof.
  intros Hs Hv [Hr Hb]. destruct (room_exit E Hctx Hel f n t i v Hs Hv Hr) as (t1 & Ht1 & Hr1 & _). exists t1. split; [exact Ht1|]. split; [exact Hr1|].
  intros ->. specialize (Hb eq_refl). destruct Hr as (Hf & Hx & Hq). change (2 ^ 33) with 8589934592 in *.
  destruct (N.eq_dec (v_exit_epoch v) FAR_FUTURE_EPOCH) as [Hne|Hne].
  - pose proof (staying_le _ _ _ Hv Hne) as Hsl.
    pose proof (initiate_exit_electra_ok E Hctx Hel t i v Hs Hf Hx ltac:(lia) ltac:(pows; lia) Hv Hne) as Hok.
    change (initiate_exit E Electra i t) with (initiate_validator_exit_electra E i t) in Ht1. rewrite Hok in Ht1. injection Ht1 as <-.
    set (s1 := exit_electra_state E t i v). set (q := exit_slot E t (v_effective_balance v)).
    destruct (exit_capacity_after E Hctx Hel t i v Hs Hv Hne) as (Hst & _ & _). fold s1 q in Hst.
    pose proof (exit_churn_bounds E Hctx Hel t) as Hp.
    assert (Hqle : q <= exit_queue_start E t + v_effective_balance v).
    { unfold q, exit_slot. pose proof (churn_epochs_le (exit_churn E t) (exit_queue_budget E t) (v_effective_balance v) ltac:(lia)). lia. }
    assert (Hqne : q <> FAR_FUTURE_EPOCH) by (unfold FAR_FUTURE_EPOCH; pows; lia).
    rewrite Hst. assert (validators s1 = updN (validators t) i (exited E q v)) as -> by reflexivity.
    pose proof (staying_upd (validators t) i v (exited E q v) Hv Hne ltac:(unfold exited; gs; exact Hqne)). lia.
  - change (initiate_exit E Electra i t) with (initiate_validator_exit_electra E i t) in Ht1. rewrite (initiate_exit_electra_noop E t i v Hv Hne) in Ht1. injection Ht1 as <-. lia.
Qed.
Lemma safe_exit f L n d g i : i < L -> safe (blk f L (n + 1) d g) (initiate_exit E f i) (fun _ => blk f L n d g).
Proof.
  intros Hi. apply safe_run. intros s K. destruct (nthN_lt (validators s) i) as [v Hv]; [rewrite (k_L _ _ _ _ _ _ K); exact Hi|].
  pose proof (k_slot _ _ _ _ _ _ K) as Hs. pose proof (k_room _ _ _ _ _ _ K) as Hr.
  destruct (roomC_exit f n s i v Hs Hv Hr) as (t1 & Ht1 & Hr1).
  destruct (exit_cases E Hctx Hel f s i v Hs (room_exit_room E f _ s (proj1 Hr)) Hv) as (s1 & v1 & Hx & Hv1 & _ & Hl & Hoth & Hrec & _ & _ & _ & q & b & Hs1 & _).
  rewrite Hx in Ht1. injection Ht1 as <-. exists tt, s1. split; [exact Hx|]. rewrite Hs1 in Hr1 |- *.
  apply (blk_registry f L (n + 1)); [exact K|lia|rewrite Hl; exact (k_L _ _ _ _ _ _ K)| |exact Hr1].
  intros j w Hw. destruct (N.eq_dec j i) as [->|Hne].
  - exists v1. split; [exact Hv1|]. assert (w = v) by congruence. subst w.
    split; [|split; [|split]].
    + apply (f_equal v_effective_balance) in Hrec. exact Hrec.
    + apply (f_equal v_public_key) in Hrec. exact Hrec.
    + apply (f_equal v_activation_epoch) in Hrec. exact Hrec.
    + apply (f_equal v_activation_eligibility_epoch) in Hrec. exact Hrec.
  - exists w. rewrite (Hoth j Hne). split; [exact Hw|]. repeat split.
Qed.

Hypothesis Hq : forall f, slashing_quotients_pos E f.
Lemma safe_slash f L n d g i : i < L -> safe (blk f L (n + 3) d g) (slash_validator E f i None) (fun _ => blk f L n d g).
Proof.
  intros Hi. unfold slash_validator.
  apply (safe_rdX _ _ _ (fun e => e < 2 ^ 56)); [intros s K; apply np_epoch; exact (epoch_small E Hctx s (k_slot _ _ _ _ _ _ K))|]. intros epoch He. cbv beta in He.
  assert (Hvec : 1 <= EPOCHS_PER_SLASHINGS_VECTOR E <= 4294967296) by (clear - Hctx; ctxs Hctx; lia).
  replace (n + 3) with (n + 2 + 1) by lia. eapply safe_seq; [apply safe_exit; exact Hi|]. intros _.
  eapply safe_seq; [apply safe_mod; [exact Hi|]; intros v; repeat split|]. intros _.
  apply (safe_liftX _ _ _ (fun _ => True)); [apply np_add; [rewrite U64_val; pows; lia|exact I]|]. intros lim _.
  eapply safe_seq; [apply safe_mod; [exact Hi|]; intros v; repeat split|]. intros _.
  apply (safe_liftX _ _ _ (fun j => j < EPOCHS_PER_SLASHINGS_VECTOR E)); [apply np_mod; [lia|]; exact (N.mod_lt epoch (EPOCHS_PER_SLASHINGS_VECTOR E) ltac:(lia))|]. intros j Hj. cbv beta in Hj.
  apply (safe_rdX _ _ _ (fun v => v_effective_balance v <= cap E f)).
  { intros s K. apply np_idx; [rewrite (k_L _ _ _ _ _ _ K); exact Hi|]. intros v Hv. exact (k_eff _ _ _ _ _ _ K v (nthN_In _ _ _ Hv)). }
  intros v Hv. cbv beta in Hv. pose proof (cap41 f) as Hc.
  assert (Heff : v_effective_balance v < 2 ^ 41) by lia. clear Hv Hc. set (eff := v_effective_balance v) in *. clearbody eff.
  assert (Hsl : forall (B : Type) (k : unit -> St BeaconState B) (Q : B -> BeaconState -> Prop), (forall u, safe (blk f L (n + 1) d g) (k u) Q) ->
    safe (blk f L (n + 2) d g) (let* x := rd (fun s => let! a := idx (slashings s) j in add E a eff) in sbind (md (fun s => set_slashings (updN (slashings s) j x) s)) k) Q).
  { intros B k Q Hk s K. assert (Hjl : j < lenN (slashings s)) by (destruct (k_shape _ _ _ _ _ _ K) as (_ & _ & _ & -> & _); exact Hj).
    destruct (nthN_lt _ _ Hjl) as [a Ha]. pose proof Ha as Ha'. apply idx_ok in Ha'.
    pose proof (k_sl _ _ _ _ _ _ K a (nthN_In _ _ _ Ha)) as Hsl. change (2 ^ 41) with 2199023255552 in *. change (2 ^ 42) with 4398046511104 in *.
    rewrite (run_rd _ _ _ (a + eff)) by (rewrite Ha'; cbn [rbind]; unfold add; apply uadd_ok; rewrite U64_val; pows; lia). rewrite run_md. apply (Hk tt).
    destruct (blk_le f L (n + 2) (n + 1) d g s ltac:(lia) K) as [K1 K2 K3 K4 K5 K6 K7 K8 K9 K10 K11 K12 K13 K14 K15 K16]. constructor; auto.
    - destruct K1 as (S1 & S2 & S3 & S4 & S5 & S6). unfold state_shape. gs. rewrite lenN_updN. auto 6.
    - intros x Hx. gsh Hx. apply In_updN in Hx as [->|Hx]; [|apply K10; exact Hx]. change (2 ^ 42) with 4398046511104. lia. }
  apply Hsl. intros _. clear Hsl. destruct (Hq f) as (Q1 & Q2 & Q3).
  apply (safe_liftX _ _ _ (fun _ => True)); [apply np_div; [destruct f; cbn in Q1 |- *; lia|exact I]|]. intros pen _.
  eapply safe_seq; [apply safe_dec; exact Hi|]. intros _.
  apply (safe_rdX _ _ _ (fun p => p < L)); [intros s K; apply (np_proposer _ _ _ _ _ _ _ K); auto|]. intros p Hp. cbv zeta.
  apply (safe_liftX _ _ _ (fun w => w < 2 ^ 41)).
  { assert (Hw : whistleblower_quotient E f <> 0) by (destruct f; cbn in Q2 |- *; lia). apply np_div; [exact Hw|].
    pose proof (N.div_le_upper_bound eff (whistleblower_quotient E f) eff Hw ltac:(nia)). lia. }
  intros wr Hwr.
  apply (safe_liftX _ _ _ (fun x => x <= wr)).
  { unfold slashing_proposer_reward. assert (HP : PROPOSER_REWARD_QUOTIENT E <> 0) by lia.
    destruct f; try (eapply np_bind; [apply np_div; [discriminate|exact eq_refl]|]; intros x <-; change (PROPOSER_WEIGHT / WEIGHT_DENOMINATOR) with 0; apply np_mul; [rewrite U64_val; lia|lia]).
    apply np_div; [exact HP|]. apply N.div_le_upper_bound; [exact HP|]. nia. }
  intros pr Hpr.
  apply (safe_pre (blk f L n d (g + (wr - pr) + pr))).
  { intros s K. apply (blk_g _ _ _ _ (g + 1 * 2 ^ 42)); [change (2 ^ 41) with 2199023255552 in *; change (2 ^ 42) with 4398046511104; lia|]. apply blk_conv. exact K. }
  eapply safe_seq; [apply safe_inc; exact Hp|]. intros _.
  apply (safe_liftX _ _ _ (fun r => r = wr - pr)); [apply np_sub; [exact Hpr|reflexivity]|]. intros r ->. apply safe_inc. exact Hp.
Qed.

Lemma safe_pslash f L n d g op : safe (blk f L (n + 3) d g) (process_proposer_slashing E f op) (fun _ => blk f L n d g).
Proof.
  unfold process_proposer_slashing. apply (safe_rdX _ _ _ (fun i => i < L)).
  - intros s K. unfold proposer_slashing_checks. cbv zeta.
    do 3 (apply np_req; intros _).
    apply (np_bind _ _ (fun _ => bh_proposer_index (sbh_message (ps_1 op)) < L)); [apply np_getN; intros v Hv; rewrite <- (k_L _ _ _ _ _ _ K); exact (nthN_some _ _ _ Hv)|]. intros v Hv.
    apply np_skip; [apply np_epoch; exact I|]. intros cur. apply np_req. intros _.
    apply np_skip; [unfold compute_epoch_at_slot; apply np_div; [clear - Hctx; ctxs Hctx; lia|exact I]|]. intros ep.
    apply np_skip; [apply np_domain; intros; exact I|]. intros dom.
    do 2 (apply np_skip; [apply np_map_err; apply np_verify; exact I|]; intros _). exact Hv.
  - intros i Hi. apply safe_slash. exact Hi.
Qed.
Lemma len_inter a b : lenN (sorted_intersection a b) <= lenN a.
Proof.
  unfold sorted_intersection. rewrite lenN_isort. unfold lenN.
  assert (H : (length (dedupN (filter (fun i => memN i b) a)) <= length a)%nat); [|lia].
  apply NoDup_incl_length; [apply NoDup_dedupN|]. intros x Hx. rewrite !In_dedupN in Hx. apply filter_In in Hx as [Hx _]. exact Hx.
Qed.
Lemma safe_aslash f L n d g op : safe (blk f L (n + 3 * lenN (ia_attesting_indices (as_1 op))) d g) (process_attester_slashing E f op) (fun _ => blk f L n d g).
Proof.
  unfold process_attester_slashing.
  apply (safe_rdX _ _ _ (fun l => (forall i, In i l -> i < L) /\ lenN l <= lenN (ia_attesting_indices (as_1 op)))).
  - intros s K. unfold attester_slashing_checks. apply np_req. intros _.
    apply (np_bind _ _ (fun _ => forall i, In i (ia_attesting_indices (as_1 op)) -> i < lenN (validators s))); [apply np_indexed; exact (fun H => H)|]. intros _ H1.
    apply np_skip; [apply np_indexed; intros; exact I|]. intros _.
    apply np_ok. split; [|apply len_inter]. intros i Hi. apply In_sorted_intersection in Hi as [Hi _]. rewrite <- (k_L _ _ _ _ _ _ K). exact (H1 i Hi).
  - intros l [Hin Hlen]. apply (safe_rdX _ _ _ (fun _ => True)); [intros s K; apply np_epoch; exact I|]. intros cur _.
    apply (safe_pre (blk f L (n + sumN (map (fun _ => 3) l)) d g)).
    { intros s. apply blk_le. assert (Hs : sumN (map (fun _ : N => 3) l) = 3 * lenN l); [|lia].
      clear. induction l as [|x l IH]; [reflexivity|]. cbn [map]. rewrite sumN_cons, lenN_cons, IH. lia. }
    eapply safe_bind.
    + apply (safe_fold (fun (_ : bool) m => blk f L m d g) (fun _ => 3)). intros b i m Hi.
      apply (safe_rdX _ _ _ (fun _ => True)); [intros s K; apply np_idx; [rewrite (k_L _ _ _ _ _ _ K); exact (Hin i Hi)|auto]|]. intros v _.
      destruct (is_slashable_validator v cur).
      * eapply safe_seq; [apply safe_slash; exact (Hin i Hi)|]. intros _. apply safe_ret. auto.
      * apply safe_ret. intros s. apply blk_le. lia.
    + intros any. cbv beta. apply safe_lift. intros s K. apply np_require. auto.
Qed.

(** ** attestations *)
Lemma np_self {A} (r : res A) P : np r P -> np r (fun a => P a /\ r = Ok a).
Proof. destruct r; cbn; auto. Qed.
Lemma np_window f data s : slot_small s -> np (attestation_window E f data s) (fun _ => attestation_timely E f s data).
Proof.
  intros Hs. apply (np_imp _ (fun a => True /\ attestation_window E f data s = Ok a)).
  2:{ intros a [_ H]. apply (window_iff E Hctx Hatt) in H; [tauto|exact Hs]. }
  apply np_self. unfold attestation_window. rewrite (previous_epoch_ok E Hctx), (current_epoch_ok E Hctx). cbn [rbind].
  assert (Hspe : 1 <= SLOTS_PER_EPOCH E <= 4096) by (clear - Hctx; ctxs Hctx; lia).
  assert (Hd : 1 <= MIN_ATTESTATION_INCLUSION_DELAY E <= 4294967296) by (destruct Hatt as [H _]; pows; lia).
  assert (Hsl : slot s < 72057594037927936) by (unfold slot_small in Hs; pows; lia).
  apply np_req. intros Hte. apply (np_bind _ _ (fun ae => ae = ad_slot data / SLOTS_PER_EPOCH E)); [unfold compute_epoch_at_slot; apply np_div; [lia|reflexivity]|].
  intros ae ->. apply np_req. intros Heq. apply N.eqb_eq in Heq. apply orb_true_iff in Hte. rewrite !N.eqb_eq in Hte.
  assert (Hep : ad_slot data / SLOTS_PER_EPOCH E <= slot s / SLOTS_PER_EPOCH E) by (unfold prev_epoch_of, epoch_of in Hte; clear - Hte Heq; set (Q1 := _ / _) in *; set (Q2 := slot s / _) in *; clearbody Q1 Q2; lia).
  assert (Hb : ad_slot data < 2 ^ 62).
  { pose proof (N.mul_succ_div_gt (ad_slot data) (SLOTS_PER_EPOCH E) ltac:(lia)) as H1. pose proof (N.mul_div_le (slot s) (SLOTS_PER_EPOCH E) ltac:(lia)) as H2.
    set (Q1 := ad_slot data / _) in *. set (Q2 := slot s / _) in *. clearbody Q1 Q2. pose proof (N.mul_le_mono_l Q1 Q2 (SLOTS_PER_EPOCH E) Hep) as H3. rewrite N.mul_succ_r in H1. pows. lia. }
  apply np_skip; [apply np_add; [rewrite U64_val; pows; lia|exact I]|]. intros lo.
  destruct (fork_le Deneb f).
  - apply np_req. intros _. exact I.
  - apply np_skip; [|intros _; exact I]. apply np_skip; [apply np_add; [rewrite U64_val; pows; lia|exact I]|]. intros hi. apply np_require. intros _. exact I.
Qed.
Lemma np_committee s sl c (Q : list N -> Prop) : state_shape E s -> sl < 2 ^ 60 -> c < committees_per_slot E s (sl / SLOTS_PER_EPOCH E) ->
  (forall com, Q com) -> np (get_beacon_committee E s sl c) Q.
Proof.
  intros Hsh Hsl Hc HQ. destruct (get_beacon_committee_ok E Hctx Hwf s sl c Hsh Hsl Hc) as (mix & _ & ->). apply np_ok. apply HQ.
Qed.
Lemma checkpoint_dec (x y : Checkpoint) : {x = y} + {x <> y}.
Proof. repeat decide equality. Qed.
Lemma np_att_committee a s f : state_shape E s -> slot_small s -> attestation_timely E f s (at_data a) ->
  np (attestation_committee_checks E a s) (fun _ => exists com, get_beacon_committee E s (ad_slot (at_data a)) (ad_index (at_data a)) = Ok com).
Proof.
  intros Hsh Hs (_ & Hte & Hlo & _). unfold attestation_committee_checks. cbv zeta. rewrite (committee_count_ok E Hctx). cbn [rbind].
  apply np_req. intros Hi. apply N.ltb_lt in Hi. rewrite Hte in Hi.
  destruct (get_beacon_committee_ok E Hctx Hwf s (ad_slot (at_data a)) (ad_index (at_data a)) Hsh) as (mix & _ & Hcom); [unfold slot_small in Hs; pows; lia|exact Hi|].
  rewrite Hcom. cbn [rbind]. apply np_require. intros _. eexists. reflexivity.
Qed.
Lemma np_attesting s a com : get_beacon_committee E s (ad_slot (at_data a)) (ad_index (at_data a)) = Ok com ->
  np (get_attesting_indices E s (at_data a) (at_aggregation_bits a)) (fun l => NoDup l).
Proof. intros H. rewrite (get_attesting_indices_ok E s _ _ com H). destruct (_ =? _); [|exact I]. apply np_ok. apply NoDup_dedupN. Qed.
(** the attesters an indexed attestation names are the ones computed from the bits *)
Lemma np_indexed_att s a com : get_beacon_committee E s (ad_slot (at_data a)) (ad_index (at_data a)) = Ok com ->
  np (get_indexed_attestation E s a) (fun ia => exists l, get_attesting_indices E s (at_data a) (at_aggregation_bits a) = Ok l /\ NoDup l /\ ia_attesting_indices ia = isort l).
Proof.
  intros H. unfold get_indexed_attestation. eapply np_bind; [apply np_self; exact (np_attesting s a com H)|]. intros l [Hnd Hl]. cbv beta in *.
  destruct (_ <? _); [exact I|]. exists l. auto.
Qed.
Lemma np_att_checks f L n d g a s : f <> Electra -> blk f L n d g s ->
  np (attestation_checks E f a s) (fun r => NoDup (snd r) /\ forall i, In i (snd r) -> i < L).
Proof.
  intros Hf K. pose proof (k_shape _ _ _ _ _ _ K) as Hsh. pose proof (k_slot _ _ _ _ _ _ K) as Hs. unfold attestation_checks. cbv zeta.
  apply (np_bind _ _ (fun _ => attestation_timely E f s (at_data a))); [apply np_window; exact Hs|]. intros cur Ht.
  apply (np_bind _ _ (fun _ => exists com, get_beacon_committee E s (ad_slot (at_data a)) (ad_index (at_data a)) = Ok com)).
  { destruct f; try (eapply np_att_committee; eassumption). contradiction. }
  intros _ (com & Hcom). apply (np_bind _ _ (fun x => x = slot s - ad_slot (at_data a))); [apply np_sub; [destruct Ht as (_ & _ & Ht & _); lia|reflexivity]|]. intros x ->.
  apply np_skip.
  { destruct (flags_iff E Hctx Hatt f s (at_data a) Hsh Hs Ht) as [F1 F2].
    destruct (checkpoint_dec (ad_source (at_data a)) (justified_for E s (at_data a))) as [He|He]; [destruct (F2 He) as (fl & -> & _); exact I|rewrite (F1 He); exact I]. }
  intros fl. apply (np_bind _ _ (fun ia => exists l, get_attesting_indices E s (at_data a) (at_aggregation_bits a) = Ok l /\ NoDup l /\ ia_attesting_indices ia = isort l)).
  { destruct f; try (eapply np_indexed_att; eassumption). contradiction. }
  intros ia (l & Hl & Hnd & Hia). apply (np_bind _ _ (fun _ => forall i, In i (ia_attesting_indices ia) -> i < lenN (validators s))); [apply np_indexed; exact (fun H => H)|].
  intros _ Hin. apply (np_bind _ _ (fun l' => l' = l)).
  { destruct f; try (rewrite Hl; reflexivity). contradiction. }
  intros l' ->. apply np_ok. cbn [snd]. split; [exact Hnd|]. intros i Hi. rewrite <- (k_L _ _ _ _ _ _ K). apply Hin. rewrite Hia. apply In_isort. exact Hi.
Qed.

(** *** the reward loop: [num] so far, [m] still to come *)
Lemma blk_participation f L n d g s b l : blk f L n d g s -> lenN l = L -> blk f L n d g (set_participation b l s).
Proof.
  intros K Hl. assert (Hal : registry_aligned f (set_participation b l s)).
  { destruct (k_al _ _ _ _ _ _ K) as [A1 A2]. pose proof (k_L _ _ _ _ _ _ K). unfold set_participation. destruct b; (split; [gs; exact A1|]); intros Hf; specialize (A2 Hf); gs; intuition congruence. }
  destruct K as [K1 K2 K3 K4 K5 K6 K7 K8 K9 K10 K11 K12 K13 K14 K15 K16]. unfold set_participation in *. destruct b; constructor; auto.
Qed.
Lemma blk_fits f L n d g s : blk f L n d g s -> active_balance_fits E s.
Proof. intros K. unfold active_balance_fits. pose proof (active_sum_le s (epoch_of E s)). pose proof (k_stake _ _ _ _ _ _ K). pows. lia. Qed.
Lemma lenN_participation f L n d g s b : f <> Phase0 -> blk f L n d g s -> lenN (participation b s) = L.
Proof. intros Hf K. destruct (k_al _ _ _ _ _ _ K) as [_ A2]. specialize (A2 Hf). pose proof (k_L _ _ _ _ _ _ K). unfold participation. destruct b; intuition congruence. Qed.
Definition att_inv (f : Fork) (L n d g : N) (s0 : BeaconState) (num m : N) (s : BeaconState) : Prop :=
  blk f L n d g s /\ validators s = validators s0 /\ num + m < 2 ^ 54.
Lemma eff_val s s0 i : validators s = validators s0 -> effective_balance_of s i = effective_balance_of s0 i.
Proof. unfold effective_balance_of. intros ->. reflexivity. Qed.
Lemma safe_flag f L n d g s0 b flags i num fw m : f <> Phase0 -> i < L ->
  safe (att_inv f L n d g s0 num (m + snd fw * (effective_balance_of s0 i / 1000000000 * 2023907))) (attestation_flag_step E b flags i num fw) (fun num' => att_inv f L n d g s0 num' m).
Proof.
  intros Hf Hi. set (w := effective_balance_of s0 i / 1000000000 * 2023907).
  assert (Hskip : forall s, att_inv f L n d g s0 num (m + snd fw * w) s -> att_inv f L n d g s0 num m s).
  { intros s (K & Hv & Hn). split; [exact K|split; [exact Hv|]]. lia. }
  unfold attestation_flag_step. destruct (memN (fst fw) flags); [|apply safe_ret; exact Hskip].
  apply (safe_rdX _ _ _ (fun _ => True)).
  { intros s (K & _). apply np_idx; [rewrite (lenN_participation f L n d g s b Hf K); exact Hi|auto]. }
  intros p _. destruct (has_flag p (fst fw)); [apply safe_ret; exact Hskip|].
  apply (safe_seq _ _ _ (att_inv f L n d g s0 num (m + snd fw * w))).
  { apply safe_md. intros s (K & Hv & Hn). split; [|split; [|exact Hn]].
    - apply blk_participation; [exact K|]. rewrite lenN_updN. exact (lenN_participation f L n d g s b Hf K).
    - unfold set_participation. destruct b; gs; exact Hv. }
  intros _. apply safe_rd. intros s (K & Hv & Hn).
  assert (Hst : registered_stake s < 2 ^ 57) by (pose proof (k_stake _ _ _ _ _ _ K); pows; lia).
  assert (Hbr : base_reward E s i <= w) by (unfold w; rewrite <- (eff_val s s0 i Hv); apply (base_reward_le E Hm); exact Hst).
  assert (Hw : w < 2 ^ 54).
  { unfold w. rewrite <- (eff_val s s0 i Hv). unfold effective_balance_of. destruct (nthN (validators s) i) as [v|] eqn:Hnv; [|reflexivity].
    pose proof (k_eff _ _ _ _ _ _ K v (nthN_In _ _ _ Hnv)) as He. pose proof (cap_le E Hm f) as Hc.
    assert (v_effective_balance v / 1000000000 <= 2048) by (apply N.div_le_upper_bound; [lia|]; lia).
    change (2 ^ 54) with 18014398509481984. set (q := _ / _) in *. clearbody q. lia. }
  clearbody w. change (2 ^ 54) with 18014398509481984 in *.
  eapply np_bind; [apply (np_eq _ (base_reward E s i)); [apply (base_reward_ok E Hctx Hatt); [exact (blk_fits _ _ _ _ _ _ K)|rewrite (k_L _ _ _ _ _ _ K); exact Hi|rewrite U64_val; lia]|exact eq_refl]|].
  intros b0 Hb0. cbv beta in Hb0. subst b0. set (B := base_reward E s i) in *. clearbody B.
  assert (HBw : B * snd fw <= snd fw * w) by (rewrite N.mul_comm; apply N.mul_le_mono_l; exact Hbr).
  eapply np_bind; [apply np_mul; [rewrite U64_val; lia|exact eq_refl]|]. intros x Hx. cbv beta in Hx. subst x.
  apply np_add; [rewrite U64_val; lia|]. split; [exact K|split; [exact Hv|]]. change (2 ^ 54) with 18014398509481984. lia.
Qed.
Lemma sum_incs s l : sumN (map (fun i => 54 * (effective_balance_of s i / 1000000000 * 2023907)) l) <= 109290978 * (effective_sum s l / 1000000000).
Proof.
  unfold effective_sum. induction l as [|i l IH]; [reflexivity|]. cbn [map]. rewrite !sumN_cons. set (a := effective_balance_of s i) in *. clearbody a.
  set (S := sumN (map (effective_balance_of s) l)) in *. set (T := sumN (map _ l)) in *. clearbody S T.
  assert (a / 1000000000 + S / 1000000000 <= (a + S) / 1000000000) by (clear; lia). set (q1 := a / _) in *. set (q2 := S / _) in *. set (q3 := (a + S) / _) in *. clearbody q1 q2 q3. lia.
Qed.
Lemma safe_att_altair f L n d g a : f <> Phase0 ->
  (forall s, blk f L (n + 16) d g s -> np (attestation_checks E f a s) (fun r => NoDup (snd r) /\ forall i, In i (snd r) -> i < L)) ->
  safe (blk f L (n + 16) d g) (process_attestation_altair E f a) (fun _ => blk f L n d g).
Proof.
  intros Hf Hchk. unfold process_attestation_altair.
  apply (safe_rdX _ _ _ (fun r => NoDup (snd r) /\ forall i, In i (snd r) -> i < L)); [exact Hchk|].
  intros [[b flags] l] [Hnd Hin]. cbn [snd] in *. intros s0 K0.
  enough (Hgoal : safe (fun s => s = s0) (let* numerator := sfold (fun num i => sfold (attestation_flag_step E b flags i) FLAG_WEIGHTS num) l 0 in
    let* reward := lift (udiv numerator ((WEIGHT_DENOMINATOR - PROPOSER_WEIGHT) * WEIGHT_DENOMINATOR / PROPOSER_WEIGHT)) in
    let* proposer := rd (get_beacon_proposer_index E) in increase_balance E proposer reward) (fun _ => blk f L n d g)) by exact (Hgoal s0 eq_refl).
  apply (safe_bind _ _ _ (fun num => att_inv f L (n + 16) d g s0 num 0)).
  - apply (safe_pre (att_inv f L (n + 16) d g s0 0 (0 + sumN (map (fun i => 54 * (effective_balance_of s0 i / 1000000000 * 2023907)) l)))).
    { intros s ->. split; [exact K0|split; [reflexivity|]]. pose proof (sum_incs s0 l) as H1.
      assert (H2 : effective_sum s0 l <= registered_stake s0) by (apply effective_sum_le; [exact Hnd|rewrite (k_L _ _ _ _ _ _ K0); exact Hin]).
      pose proof (k_stake _ _ _ _ _ _ K0) as H3.
      assert (H4 : effective_sum s0 l / 1000000000 < 144115189) by (apply N.div_lt_upper_bound; [lia|]; change (2 ^ 57) with 144115188075855872 in H3; lia).
      set (q := effective_sum s0 l / _) in *. clearbody q. change (2 ^ 54) with 18014398509481984. lia. }
    apply (safe_fold (fun num m => att_inv f L (n + 16) d g s0 num m)). intros num i m Hi.
    pose proof (safe_fold (fun num m => att_inv f L (n + 16) d g s0 num m) (fun fw : N * N => snd fw * (effective_balance_of s0 i / 1000000000 * 2023907))
      (attestation_flag_step E b flags i) FLAG_WEIGHTS m num (fun num0 fw m0 _ => safe_flag f L (n + 16) d g s0 b flags i num0 fw m0 Hf (Hin i Hi))) as H.
    eapply safe_pre; [|exact H]. intros s. cbn [FLAG_WEIGHTS map snd]. rewrite !sumN_cons. change (sumN []) with 0.
    set (w := effective_balance_of s0 i / _ * _). clearbody w. replace (14 * w + (26 * w + (14 * w + 0))) with (54 * w) by lia. auto.
  - intros num. apply (safe_pre (fun s => blk f L n d (g + 16 * 2 ^ 42) s /\ num < 2 ^ 54)).
    { intros s (K & _ & Hn). split; [apply blk_conv; exact K|lia]. }
    intros s1 [K1 Hnum]. revert s1 K1.
    enough (Hgoal : safe (blk f L n d (g + 16 * 2 ^ 42)) (let* reward := lift (udiv num ((WEIGHT_DENOMINATOR - PROPOSER_WEIGHT) * WEIGHT_DENOMINATOR / PROPOSER_WEIGHT)) in
      let* proposer := rd (get_beacon_proposer_index E) in increase_balance E proposer reward) (fun _ => blk f L n d g)) by exact Hgoal.
    change ((WEIGHT_DENOMINATOR - PROPOSER_WEIGHT) * WEIGHT_DENOMINATOR / PROPOSER_WEIGHT) with 448.
    apply (safe_liftX _ _ _ (fun r => r <= 16 * 2 ^ 42)).
    { apply np_div; [lia|]. change (2 ^ 54) with 18014398509481984 in Hnum. change (2 ^ 42) with 4398046511104. clear - Hnum. lia. }
    intros r Hr. apply (safe_rdX _ _ _ (fun p => p < L)); [intros s K; eapply np_proposer; [exact K|auto]|]. intros p Hp.
    eapply safe_pre; [|apply safe_inc; exact Hp]. intros s. apply blk_g. lia.
Qed.
Lemma safe_att_phase0 L n d g a : safe (blk Phase0 L n d g) (process_attestation_phase0 E a) (fun _ => blk Phase0 L n d g).
Proof.
  unfold process_attestation_phase0. apply (safe_rdX _ _ _ (fun _ => True)).
  - intros s K. pose proof (k_shape _ _ _ _ _ _ K) as Hsh. pose proof (k_slot _ _ _ _ _ _ K) as Hs. unfold attestation_checks_phase0. cbv zeta.
    apply (np_bind _ _ (fun _ => attestation_timely E Phase0 s (at_data a))); [apply np_window; exact Hs|]. intros cur Ht.
    eapply np_bind; [eapply np_att_committee; eassumption|]. intros _ (com & Hcom).
    apply np_skip; [eapply np_imp; [eapply np_indexed_att; eassumption|auto]|]. intros ia.
    apply np_skip; [apply np_indexed; auto|]. intros _.
    apply np_skip; [apply np_sub; [destruct Ht as (_ & _ & Ht & _); lia|exact I]|]. intros x.
    apply np_skip; [eapply np_proposer; [exact K|auto]|]. intros p. apply np_req. intros _. exact I.
  - intros r _. destruct (fst r); apply safe_md; intros s [K1 K2 K3 K4 K5 K6 K7 K8 K9 K10 K11 K12 K13 K14 K15 K16]; constructor; auto.
Qed.
Lemma safe_att f L n d g a : f <> Electra -> safe (blk f L (n + 16) d g) (process_attestation E f a) (fun _ => blk f L n d g).
Proof.
  intros Hf. unfold process_attestation. destruct f; try contradiction;
    try (apply safe_att_altair; [discriminate|]; intros s K; eapply np_att_checks; [exact Hf|exact K]).
  eapply safe_pre; [|apply safe_att_phase0]. intros s. apply blk_le. lia.
Qed.

(** ** deposits *)
Definition blkE (f : Fork) (n d g : N) (s : BeaconState) : Prop := exists L, blk f L n d g s.
Lemma safe_any {A} (P : N -> BeaconState -> Prop) (m : St BeaconState A) Q : (forall L, safe (P L) m Q) -> safe (fun s => exists L, P L s) m Q.
Proof. intros H s (L & HL). exact (H L s HL). Qed.
Lemma safe_blkE {A} f n d g (m : St BeaconState A) n' d' g' : (forall L, safe (blk f L n d g) m (fun _ => blk f L n' d' g')) -> safe (blkE f n d g) m (fun _ => blkE f n' d' g').
Proof. intros H. apply safe_any. intros L. apply (safe_imp (blk f L n d g) _ m (fun _ => blk f L n' d' g')); [apply H|auto|]. intros a s K. exists L. exact K. Qed.

Definition fresh (v : Validator) : Prop :=
  v_activation_epoch v = FAR_FUTURE_EPOCH /\ v_exit_epoch v = FAR_FUTURE_EPOCH.
Lemma room_append f n s v vs : fresh v -> (f = Electra -> v_effective_balance v = 0) -> vs = validators s ++ [v] ->
  registered_stake s + v_effective_balance v < 2 ^ 64 -> room E f n s -> room E f n (set_validators vs s).
Proof.
  intros [Hact Hex] Hz -> Hst R.
  assert (Hx : forall B, exits_below s B -> exits_below (set_validators (validators s ++ [v]) s) B).
  { intros B HB w Hw Hne. gsh Hw. apply in_app_iff in Hw as [Hw|[<-|[]]]; [exact (HB w Hw Hne)|contradiction]. }
  destruct f; try (destruct R as (B & H1 & H2 & H3); exists B; split; [apply Hx; exact H1|split; [exact H2|exact H3]]).
  destruct R as (R1 & R2 & R3). specialize (Hz eq_refl).
  split; [|split; [exact R2|]].
  - unfold active_balance_fits. eapply N.le_lt_trans; [apply active_sum_le|]. unfold registered_stake in *. gs. rewrite map_app, sumN_app. cbn [map]. rewrite sumN_cons. change (sumN []) with 0. lia.
  - unfold staying. gs. rewrite filter_app. cbn [filter]. rewrite Hex, N.eqb_refl, map_app, sumN_app. cbn [map]. rewrite sumN_cons, Hz. change (sumN []) with 0. rewrite !N.add_0_r. exact R3.
Qed.
Lemma roomC_append f n s v vs : fresh v -> (f = Electra -> v_effective_balance v = 0) -> vs = validators s ++ [v] ->
  registered_stake s + v_effective_balance v < 2 ^ 64 -> roomC f n s -> roomC f n (set_validators vs s).
Proof.
  intros Hv Hz Hvs Hst [R1 R2]. split; [eapply room_append; eassumption|]. intros Hf. specialize (R2 Hf). specialize (Hz Hf). destruct Hv as [_ Hex].
  change (exit_queue_start E (set_validators vs s)) with (exit_queue_start E s). gs. subst vs.
  unfold staying in *. rewrite filter_app. cbn [filter]. rewrite Hex, N.eqb_refl, map_app, sumN_app. cbn [map]. rewrite sumN_cons, Hz. change (sumN []) with 0. rewrite !N.add_0_r. exact R2.
Qed.
Lemma blk_append f L n d g s v a s' : blk f L n (d + 1) (g + a) s -> fresh v -> v_effective_balance v <= cap E f ->
  validators s' = validators s ++ [v] -> balances s' = balances s ++ [a] -> slot s' = slot s -> slashings s' = slashings s ->
  current_sync_committee s' = current_sync_committee s -> eth1_deposit_index s' = eth1_deposit_index s ->
  state_shape E s' -> registry_aligned f s' -> roomC f n s' -> pending_partial_withdrawals s' = pending_partial_withdrawals s -> blk f (L + 1) n d g s'.
Proof.
  intros [K1 K2 K3 K4 K5 K6 K7 K8 K9 K10 K11 K12 K13 K14 K15 K16] Hv Hc Ev Eb Es Esl Ecm Eei Hsh Hal Hr Epp. pose proof (cap41 f) as H41.
  constructor; auto; unfold slot_small in *; rewrite ?Ev, ?Eb, ?Es, ?Esl, ?Ecm, ?Eei; auto.
  - rewrite lenN_app, K2. reflexivity.
  - lia.
  - intros w Hw. apply in_app_iff in Hw as [Hw|[<-|[]]]; [exact (K7 w Hw)|exact Hc].
  - unfold registered_stake in *. rewrite Ev, map_app, sumN_app. cbn [map]. rewrite sumN_cons. change (sumN []) with 0. change (2 ^ 41) with 2199023255552 in *. lia.
  - intros b Hb. apply in_app_iff in Hb as [Hb|[<-|[]]]; [specialize (K9 b Hb); lia|lia].
  - intros w Hw Hne. apply in_app_iff in Hw as [Hw|[<-|[]]]; [exact (K12 w Hw Hne)|]. destruct Hv as [Hv _]. contradiction.
  - intros Hf. destruct (K13 Hf) as [C1 C2]. split; [|exact C2]. intros pk Hpk. rewrite Ecm in Hpk. destruct (C1 pk Hpk) as (w & Hw & Hk). exists w. rewrite Ev. split; [apply in_app_iff; left; exact Hw|exact Hk].
  - lia.
  - intros Hf. destruct (K16 Hf) as [P1 P2]. unfold pending_sound, pending_balance_of in *. rewrite Epp. split; [|exact P2]. intros w Hw. specialize (P1 w Hw). lia.
Qed.
Lemma np_is_err {A} (r : res A) : np r (fun _ => True) -> np (is_err_r r) (fun _ => True).
Proof. destruct r; cbn; auto. Qed.
Lemma aligned_app f s v a s' : registry_aligned f s -> validators s' = validators s ++ [v] -> balances s' = balances s ++ [a] ->
  (f <> Phase0 -> previous_epoch_participation s' = previous_epoch_participation s ++ [0] /\ current_epoch_participation s' = current_epoch_participation s ++ [0]
     /\ inactivity_scores s' = inactivity_scores s ++ [0]) -> registry_aligned f s'.
Proof.
  intros [A1 A2] Ev Eb H. split; [rewrite Ev, Eb, !lenN_app, A1; reflexivity|]. intros Hf. destruct (H Hf) as (-> & -> & ->). destruct (A2 Hf) as (B1 & B2 & B3).
  rewrite Ev, !lenN_app, B1, B2, B3. auto.
Qed.
Lemma safe_add_validator f L n d g pk wc a : f <> Electra ->
  safe (blk f L n (d + 1) (g + a)) (add_validator_to_registry E f pk wc a) (fun _ => blkE f n d g).
Proof.
  intros Hf. assert (Hinc : 1 <= EFFECTIVE_BALANCE_INCREMENT E) by (clear - Hctx; ctxs Hctx; lia).
  assert (Hgoal : safe (blk f L n (d + 1) (g + a)) (let* v := lift (get_validator_from_deposit E pk wc a) in
    md (fun s => set_balances (balances s ++ [a]) (set_validators (validators s ++ [v]) s)) ;;
    swhen (fork_le Altair f)
      (md (fun s => set_inactivity_scores (inactivity_scores s ++ [0])
             (set_current_epoch_participation (current_epoch_participation s ++ [0])
             (set_previous_epoch_participation (previous_epoch_participation s ++ [0]) s))))) (fun _ => blkE f n d g));
    [|unfold add_validator_to_registry; destruct f; try exact Hgoal; contradiction].
  apply (safe_liftX _ _ _ (fun v => fresh v /\ v_effective_balance v <= cap E f)).
  { unfold get_validator_from_deposit. apply (np_bind _ _ (fun m => m <= a)); [apply np_mod; [lia|apply N.mod_le; lia]|]. intros m Hma.
    apply np_skip; [apply np_sub; [exact Hma|exact I]|]. intros r. apply np_ok. split; [split; reflexivity|]. cbn [v_effective_balance].
    replace (cap E f) with (MAX_EFFECTIVE_BALANCE E) by (destruct f; try reflexivity; contradiction). lia. }
  intros v [Hv Hc]. intros s K. 
  assert (Hr := roomC_append f n s v _ Hv ltac:(contradiction) eq_refl ltac:(pose proof (k_stake _ _ _ _ _ _ K); pose proof (cap41 f); pows; change (2 ^ 57) with 144115188075855872 in *; change (2 ^ 41) with 2199023255552 in *; lia) (k_room _ _ _ _ _ _ K)).
  assert (Hll : lenN (validators s ++ [v]) <= 2 ^ 40) by (rewrite lenN_app, (k_L _ _ _ _ _ _ K); change (lenN [v]) with 1; pose proof (k_len _ _ _ _ _ _ K); lia).
  unfold swhen, sbind, md, sret. destruct (fork_le Altair f) eqn:Hal; exists (L + 1); (eapply (blk_append f L n d g s v a); [exact K|exact Hv|exact Hc|reflexivity..| | | |reflexivity]).
  - destruct (k_shape _ _ _ _ _ _ K) as (S1 & S2 & S3 & S4 & S5 & _). split; [exact S1|split; [exact S2|split; [exact S3|split; [exact S4|split; [exact S5|exact Hll]]]]].
  - eapply aligned_app; [exact (k_al _ _ _ _ _ _ K)|reflexivity..|]. intros _. split; [|split]; reflexivity.
  - exact Hr.
  - destruct (k_shape _ _ _ _ _ _ K) as (S1 & S2 & S3 & S4 & S5 & _). split; [exact S1|split; [exact S2|split; [exact S3|split; [exact S4|split; [exact S5|exact Hll]]]]].
  - eapply aligned_app; [exact (k_al _ _ _ _ _ _ K)|reflexivity..|]. intros Hp. destruct f; try discriminate. contradiction.
  - exact Hr.
Qed.
Lemma safe_apply_deposit f L n d g pk wc a sg : f <> Electra -> safe (blk f L n (d + 1) (g + a)) (apply_deposit E f pk wc a sg) (fun _ => blkE f n d g).
Proof.
  intros Hf. assert (Hless : forall L s g', g <= g' -> blk f L n (d + 1) g' s -> blkE f n d g s).
  { intros L' s g' Hg K. exists L'. apply (blk_g f L' n d g'); [exact Hg|]. destruct K as [K1 K2 K3 K4 K5 K6 K7 K8 K9 K10 K11 K12 K13 K14 K15 K16].
    constructor; auto; [lia|]. change (2 ^ 41) with 2199023255552 in *. lia. }
  assert (Hgoal : safe (blk f L n (d + 1) (g + a)) (apply_deposit_phase0 E f pk wc a sg) (fun _ => blkE f n d g)); [|destruct f; try exact Hgoal; contradiction].
  unfold apply_deposit_phase0. apply (safe_rdX _ _ _ (fun o => match o with Some i => i < L | None => True end)).
  { intros s K. apply np_ok. destruct (position_pk pk (validators s) 0) as [i|] eqn:Hp; [|exact I]. apply holder_position in Hp. destruct Hp as [Hp _].
    rewrite <- (k_L _ _ _ _ _ _ K). unfold key_of in Hp. destruct (nthN (validators s) i) as [v|] eqn:Hv; [exact (nthN_some _ _ _ Hv)|discriminate]. }
  intros [i|] Hi.
  - eapply safe_imp; [apply (safe_inc f L n (d + 1) g i a Hi)|auto|]. intros u s K. cbv beta in K. apply (Hless L s g); [lia|exact K].
  - apply (safe_liftX _ _ _ (fun _ => True)); [apply np_domain0; auto|]. intros dom _.
    apply (safe_liftX _ _ _ (fun _ => True)); [apply np_is_err; apply np_verify; exact I|]. intros [] _.
    + apply safe_ret. intros s K. apply (Hless L s (g + a)); [lia|exact K].
    + apply safe_add_validator. exact Hf.
Qed.
Lemma safe_deposit f n d g dep : f <> Electra ->
  safe (blkE f (n + 1) (d + 1) (g + dd_amount (dep_data dep))) (process_deposit E f dep) (fun _ => blkE f n d g).
Proof.
  intros Hf. apply safe_any. intros L. unfold process_deposit.
  apply (safe_rdX _ _ _ (fun _ => True)).
  { intros s K. apply np_skip; [apply np_htr; intros; exact I|]. intros leaf. apply np_require. auto. }
  intros _ _. apply (safe_rdX _ _ _ (fun i => i + n < 2 ^ 63)).
  { intros s K. pose proof (k_eth _ _ _ _ _ _ K) as He. change (2 ^ 63) with 9223372036854775808 in *. apply np_add; [rewrite U64_val; lia|lia]. }
  intros i Hi. apply (safe_seq _ _ _ (blk f L n (d + 1) (g + dd_amount (dep_data dep)))).
  { apply safe_md. intros s K. apply (blk_le f L (n + 1) n) in K; [|lia]. destruct K as [K1 K2 K3 K4 K5 K6 K7 K8 K9 K10 K11 K12 K13 K14 K15 K16]. constructor; auto. }
  intros _. cbv zeta. apply safe_apply_deposit. exact Hf.
Qed.

(** ** exits and credential changes *)
Lemma safe_bls f L n d g op : safe (blk f L n d g) (process_bls_to_execution_change E op) (fun _ => blk f L n d g).
Proof.
  unfold process_bls_to_execution_change. apply (safe_rdX _ _ _ (fun i => i < L)).
  - intros s K. unfold bls_change_checks. cbv zeta. apply np_req. intros Hi. apply N.ltb_lt in Hi. rewrite (k_L _ _ _ _ _ _ K) in Hi.
    apply np_skip; [apply np_idx; [rewrite (k_L _ _ _ _ _ _ K); exact Hi|auto]|]. intros v. do 2 (apply np_req; intros _).
    apply np_skip; [apply np_domain0; auto|]. intros dom. apply np_skip; [apply np_verify; exact I|]. intros _. exact Hi.
  - intros i Hi. apply safe_mod; [exact Hi|]. intros v. split; [|reflexivity]. split; [|split; [|split]]; reflexivity.
Qed.
Lemma safe_ve f L n d g op : f <> Electra -> safe (blk f L (n + 1) d g) (process_voluntary_exit E f op) (fun _ => blk f L n d g).
Proof.
  intros Hf. unfold process_voluntary_exit. apply (safe_rdX _ _ _ (fun i => i < L)); [|intros i Hi; apply safe_exit; exact Hi].
  intros s K. unfold voluntary_exit_checks. cbv zeta.
  apply (np_bind _ _ (fun v => nthN (validators s) (ve_validator_index (sve_message op)) = Some v)); [apply np_getN; auto|]. intros v Hv.
  assert (Hi : ve_validator_index (sve_message op) < L) by (rewrite <- (k_L _ _ _ _ _ _ K); exact (nthN_some _ _ _ Hv)).
  eapply np_bind; [apply np_epoch; exact eq_refl|]. intros cur Hcur. cbv beta in Hcur. subst cur.
  apply np_req. intros Hact. do 2 (apply np_req; intros _).
  assert (Hel0 : v_activation_eligibility_epoch v < 2 ^ 56).
  { pose proof (epoch_small E Hctx s (k_slot _ _ _ _ _ _ K)) as He. unfold is_active_validator in Hact. apply andb_true_iff in Hact as [Hact _]. apply N.leb_le in Hact.
    assert (Hne : v_activation_epoch v <> FAR_FUTURE_EPOCH) by (unfold FAR_FUTURE_EPOCH; rewrite ?U64_val; pows; lia).
    pose proof (k_queued _ _ _ _ _ _ K v (nthN_In _ _ _ Hv) Hne). lia. }
  apply np_skip; [apply np_add; [destruct Hbs as (_ & _ & H & _); rewrite U64_val; pows; lia|exact I]|]. intros mt. apply np_req. intros _.
  apply np_skip; [destruct f; try exact I; contradiction|]. intros _.
  apply np_skip; [destruct (fork_le Deneb f); [apply np_domain0; auto|apply np_domain; auto]|]. intros dom.
  apply np_skip; [apply np_map_err; apply np_verify; exact I|]. intros _. exact Hi.
Qed.

(** ** header, randao, eth1 data *)
Lemma safe_randao f L n d g b : safe (blk f L n d g) (process_randao E b) (fun _ => blk f L n d g).
Proof.
  unfold process_randao. apply (safe_rdX _ _ _ (fun _ => True)).
  - intros s K. apply (np_bind _ _ (fun p => p < L)); [eapply np_proposer; [exact K|auto]|]. intros p Hp.
    apply np_skip; [apply np_idx; [rewrite (k_L _ _ _ _ _ _ K); exact Hp|auto]|]. intros v.
    eapply np_bind; [apply np_epoch; exact eq_refl|]. intros cur Hcur. cbv beta in Hcur. subst cur.
    apply np_skip; [apply np_domain; auto|]. intros dom. apply np_skip; [apply np_map_err; apply np_verify; exact I|]. intros _.
    destruct (mix_ok E Hctx s (k_shape _ _ _ _ _ _ K)) as (mix & _ & Hmix). rewrite Hmix. cbn [rbind].
    apply np_skip; [apply np_mod; [clear - Hctx; ctxs Hctx; lia|exact I]|]. intros i. exact I.
  - intros r _. apply safe_md. intros s K. destruct (k_shape _ _ _ _ _ _ K) as (S1 & S2 & S3 & S4 & S5 & S6).
    destruct K as [K1 K2 K3 K4 K5 K6 K7 K8 K9 K10 K11 K12 K13 K14 K15 K16]. constructor; auto.
    split; [exact S1|split; [exact S2|split; [gs; rewrite lenN_updN; exact S3|split; [exact S4|split; [exact S5|exact S6]]]]].
Qed.

(** ** sync aggregates *)
Lemma last_position_some pk : forall vs i0 acc, (exists v, In v vs /\ v_public_key v = pk) \/ (exists i, acc = Some i /\ i < i0) ->
  exists i, last_position_pk pk vs i0 acc = Some i /\ i < i0 + lenN vs.
Proof.
  induction vs as [|v vs IH]; intros i0 acc H; cbn [last_position_pk].
  - destruct H as [(v & [] & _)|(i & -> & Hi)]. exists i. split; [reflexivity|lia].
  - rewrite lenN_cons. destruct (IH (i0 + 1) (if bytes_eqb (v_public_key v) pk then Some i0 else acc)) as (i & Hi & Hlt).
    + destruct (bytes_eqb (v_public_key v) pk) eqn:Hb; [right; exists i0; split; [reflexivity|lia]|].
      destruct H as [(w & [<-|Hw] & Hk)|(i & -> & Hi)].
      * apply bytes_eqb_iff in Hk. congruence.
      * left. exists w. auto.
      * right. exists i. split; [reflexivity|lia].
    + exists i. split; [exact Hi|lia].
Qed.
Lemma np_sync_indices f L n d g s : f <> Phase0 -> blk f L n d g s ->
  np (sync_indices s) (fun l => (forall i, In i l -> i < L) /\ lenN l <= SYNC_COMMITTEE_SIZE E).
Proof.
  intros Hf K. destruct (k_com _ _ _ _ _ _ K Hf) as [C1 C2]. unfold sync_indices.
  eapply np_imp; [apply (np_rmap _ _ (fun _ i => i < L))|].
  - intros pk Hpk. destruct (last_position_some pk (validators s) 0 None (or_introl (C1 pk Hpk))) as (i & -> & Hi). rewrite (k_L _ _ _ _ _ _ K) in Hi. exact Hi.
  - intros l Hl. cbv beta in Hl. split.
    + clear - Hl. induction Hl as [|x y l k Hx _ IH]; intros i [].
      * subst. exact Hx.
      * auto.
    + replace (lenN l) with (lenN (sc_public_keys (current_sync_committee s))); [exact C2|]. unfold lenN. f_equal. clear - Hl. induction Hl; cbn; congruence.
Qed.
Lemma np_sync_checks f L n d g sa s : blk f L n d g s -> np (sync_aggregate_checks E sa s) (fun _ => True).
Proof.
  intros K. unfold sync_aggregate_checks. cbv zeta. pose proof (k_pos _ _ _ _ _ _ K) as Hpos.
  apply (np_bind _ _ (fun x => x = slot s - 1)); [apply np_sub; [lia|lia]|]. intros x ->.
  apply np_skip; [unfold compute_epoch_at_slot; apply np_div; [clear - Hctx; ctxs Hctx; lia|exact I]|]. intros ep.
  apply np_skip; [apply np_domain; auto|]. intros dom.
  destruct (block_root_at E Hctx s (slot s - 1) (k_shape _ _ _ _ _ _ K) (k_slot _ _ _ _ _ _ K)) as (r & _ & Hr); [lia|clear - Hctx Hpos; ctxs Hctx; lia|].
  rewrite Hr. cbn [rbind]. apply np_skip; [apply np_signing; auto|]. intros root. apply np_require. auto.
Qed.
Lemma np_sync_rewards f L n d g s : blk f L n d g s ->
  np (sync_rewards E s) (fun r => SYNC_COMMITTEE_SIZE E * fst r <= 2 ^ 44 /\ snd r <= fst r).
Proof.
  intros K. assert (Hst : registered_stake s < 2 ^ 57) by (pose proof (k_stake _ _ _ _ _ _ K); pows; lia).
  pose proof (per_increment_le E Hm s Hst) as Hpi. fold (reward_per_increment E s) in Hpi. pose proof (active_balance_bounds E Hm s Hst) as [_ Hb].
  assert (Hsz : 1 <= SYNC_COMMITTEE_SIZE E) by apply Hbs. assert (Hse : 1 <= SLOTS_PER_EPOCH E) by (clear - Hctx; ctxs Hctx; lia).
  assert (Hi : active_balance E s / EFFECTIVE_BALANCE_INCREMENT E <= 144115189).
  { rewrite (inc_val E Hm). apply N.div_le_upper_bound; [lia|]. change (2 ^ 57) with 144115188075855872 in *. lia. }
  assert (Hp : reward_per_increment E s * (active_balance E s / EFFECTIVE_BALANCE_INCREMENT E) * 2 <= 583353078 * 1000000).
  { set (A := reward_per_increment E s) in *. set (B := active_balance E s / _) in *. clearbody A B. pose proof (N.mul_le_mono A 2023907 B 144115189 Hpi Hi). lia. }
  assert (Hmem : SYNC_COMMITTEE_SIZE E * sync_member_reward E s <= 2 ^ 44).
  { unfold sync_member_reward. set (T := _ * 2) in *. clearbody T. etransitivity; [apply N.mul_div_le; lia|]. etransitivity; [apply N.div_le_upper_bound with (q := T / 64); [lia|]|].
    - set (q := T / 64). clearbody q. nia.
    - change (2 ^ 44) with 17592186044416. apply N.div_le_upper_bound; [lia|]. lia. }
  assert (Hm1 : sync_member_reward E s <= 2 ^ 44) by (etransitivity; [|exact Hmem]; set (q := sync_member_reward E s); clearbody q; nia).
  eapply np_eq; [apply (sync_rewards_ok E Hctx Hatt); [exact (blk_fits _ _ _ _ _ _ K)|exact Hsz|]|].
  - split; [set (T := _ * 2) in *; clearbody T; pows; lia|]. change (2 ^ 44) with 17592186044416 in *. pows. lia.
  - cbn [fst snd]. split; [exact Hmem|]. unfold sync_proposer_reward. apply N.div_le_upper_bound; [lia|]. lia.
Qed.
Lemma safe_sync f L n d g sa : f <> Phase0 -> safe (blk f L (n + 16) d g) (process_sync_aggregate E sa) (fun _ => blk f L n d g).
Proof.
  intros Hf. unfold process_sync_aggregate. apply (safe_rdX _ _ _ (fun _ => True)); [intros s K; eapply np_sync_checks; exact K|]. intros _ _.
  apply (safe_rdX _ _ _ (fun r => SYNC_COMMITTEE_SIZE E * fst r <= 2 ^ 44 /\ snd r <= fst r)); [intros s K; eapply np_sync_rewards; exact K|]. intros r [Hr1 Hr2].
  apply (safe_rdX _ _ _ (fun l => (forall i, In i l -> i < L) /\ lenN l <= SYNC_COMMITTEE_SIZE E)); [intros s K; eapply np_sync_indices; [exact Hf|exact K]|]. intros l [Hin Hlen].
  apply (safe_pre (blk f L n d (g + sumN (map (fun _ => fst r + snd r) (combine l (sa_bits sa)))))).
  { intros s K. apply blk_conv in K. eapply blk_g; [|exact K].
    assert (Hs : sumN (map (fun _ : N * bool => fst r + snd r) (combine l (sa_bits sa))) = lenN (combine l (sa_bits sa)) * (fst r + snd r)).
    { clear. induction (combine l (sa_bits sa)) as [|x t IH]; [reflexivity|]. cbn [map]. rewrite sumN_cons, lenN_cons, IH. lia. }
    rewrite Hs. assert (Hc : lenN (combine l (sa_bits sa)) <= SYNC_COMMITTEE_SIZE E) by (unfold lenN in *; rewrite combine_length; lia).
    pose proof (N.mul_le_mono_r _ _ (fst r + snd r) Hc). set (A := fst r) in *. set (B := snd r) in *. clearbody A B.
    assert (SYNC_COMMITTEE_SIZE E * (A + B) <= SYNC_COMMITTEE_SIZE E * A * 2) by nia.
    change (2 ^ 44) with 17592186044416 in *. change (2 ^ 42) with 4398046511104. lia. }
  apply (safe_for (fun m => blk f L n d m) (fun _ => fst r + snd r)). intros [i b] m Hx. apply in_combine_l in Hx. specialize (Hin i Hx).
  unfold sync_step. cbn [fst snd]. destruct b.
  - eapply safe_seq; [eapply safe_pre; [|apply (safe_inc f L n d (m + snd r) i (fst r) Hin)]; intros s K; cbv beta in K; replace (m + snd r + fst r) with (m + (fst r + snd r)) by lia; exact K|].
    intros _. apply (safe_rdX _ _ _ (fun p => p < L)); [intros s K; eapply np_proposer; [exact K|auto]|]. intros p Hp. apply safe_inc. exact Hp.
  - eapply safe_imp; [apply (safe_dec f L n d (m + (fst r + snd r)) i (fst r) Hin)|auto|]. intros u s K. cbv beta in K. eapply blk_g; [|exact K]. lia.
Qed.

(** ** payloads and withdrawals *)
Lemma safe_payload f L n d g b : safe (fun s => blk f L n d g s /\ genesis_time s < 2 ^ 62) (process_execution_payload E f b) (fun _ => blk f L n d g).
Proof.
  unfold process_execution_payload. apply (safe_rdX _ _ _ (fun _ => True)).
  - intros s [K Hg]. unfold payload_checks. cbv zeta. apply np_req. intros _. eapply np_bind; [apply np_epoch; exact eq_refl|]. intros cur Hcur. cbv beta in Hcur. subst cur.
    destruct (mix_ok E Hctx s (k_shape _ _ _ _ _ _ K)) as (mix & _ & Hmix). rewrite Hmix. cbn [rbind]. apply np_req. intros _.
    apply np_skip.
    { unfold compute_timestamp_at_slot. pose proof (k_slot _ _ _ _ _ _ K) as Hs. unfold slot_small in Hs. destruct Hbs as (_ & H6 & _). change (2 ^ 6) with 64 in H6.
      assert (Hm6 : slot s * SECONDS_PER_SLOT E <= 72057594037927936 * 64) by (apply N.mul_le_mono; [pows; lia|exact H6]).
      apply (np_bind _ _ (fun x => x = slot s)); [apply np_ok_or; unfold csub, GENESIS_SLOT; intros x; destruct (_ <=? _); [|discriminate]; intros Hx; injection Hx as <-; lia|]. intros x ->.
      eapply np_bind; [apply np_mul; [rewrite U64_val; lia|exact eq_refl]|]. intros y Hy. cbv beta in Hy. subst y. apply np_add; [rewrite U64_val; pows; lia|exact I]. }
    intros t. do 2 (apply np_req; intros _). apply np_require. auto.
  - intros _ _. apply (safe_liftX _ _ _ (fun _ => True)).
    + unfold payload_to_header. apply np_skip; [apply np_htr; auto|]. intros tr.
      do 3 (apply np_skip; [match goal with |- np (if ?c then _ else _) _ => destruct c; [apply np_htr; auto|exact I] end|]; intros ?). exact I.
    + intros h _. apply safe_md. intros s [[K1 K2 K3 K4 K5 K6 K7 K8 K9 K10 K11 K12 K13 K14 K15 K16] _]. constructor; auto.
Qed.
Lemma after_withdrawals_le ws : forall bal, lenN (after_withdrawals ws bal) = lenN bal /\ forall b, In b (after_withdrawals ws bal) -> exists b0, In b0 bal /\ b <= b0.
Proof.
  unfold after_withdrawals. induction ws as [|w ws IH]; intros bal; cbn [fold_left]; [split; [reflexivity|]; intros b Hb; exists b; split; [exact Hb|lia]|].
  destruct (IH (debit (w_validator_index w) (w_amount w) bal)) as [H1 H2]. split; [rewrite H1; apply lenN_debit|].
  intros b Hb. destruct (H2 b Hb) as (b0 & Hb0 & Hle). apply In_debit in Hb0 as [Hb0|(b1 & Hb1 & ->)]; [exists b0; auto|exists b1; split; [exact Hb1|lia]].
Qed.
Lemma safe_withdrawals f L n d g p : f <> Electra ->
  safe (fun s => blk f L n d g s /\ genesis_time s < 2 ^ 62 /\ next_withdrawal_validator_index s < lenN (validators s) /\ next_withdrawal_index s < 2 ^ 62) (process_withdrawals E f p)
    (fun _ s => blk f L n d g s /\ genesis_time s < 2 ^ 62).
Proof.
  intros Hf s (K & Hg & Hv & Hi).
  assert (Hrdy : sweep_ready s). { split; [exact (proj1 (k_al _ _ _ _ _ _ K))|]. split; [apply (k_shape _ _ _ _ _ _ K)|]. split; [exact Hv|]. change (2 ^ 63) with 9223372036854775808. pows. lia. }
  destruct (withdrawals_run E Hctx f p s) as [R1 R2]; [intros He; contradiction|intros He; contradiction|exact Hrdy|apply Hbs|].
  destruct (list_eq_dec Withdrawal_eq_dec (ep_withdrawals p) (expected_withdrawals E f s)) as [He|He].
  - rewrite (R1 He). split; [|exact Hg]. destruct (after_withdrawals_le (expected_withdrawals E f s) (balances s)) as [L1 L2].
    set (bs := after_withdrawals _ _) in *. clearbody bs.
    assert (K' : blk f L n d g (set_balances bs s)).
    { eapply blk_balances; [exact K|exact L1| |reflexivity]. intros b Hb. destruct (L2 b Hb) as (b0 & Hb0 & Hle). pose proof (k_bal _ _ _ _ _ _ K b0 Hb0). lia. }
    destruct K' as [K1 K2 K3 K4 K5 K6 K7 K8 K9 K10 K11 K12 K13 K14 K15 K16]. constructor; auto.
  - unfold process_withdrawals, sbind, rd, withdrawals_checks. rewrite (expected_ok E Hctx f s); [|intros Hx; contradiction|exact Hrdy|apply Hbs].
    cbn [rbind fst]. destruct (withdrawals_eqb _ _) eqn:Hw; [apply withdrawals_eqb_iff in Hw; contradiction|]. exact I.
Qed.

(** ** what the steps before the operations leave alone *)
Definition keeps {A T} (F : BeaconState -> T) (m : St BeaconState A) : Prop := forall s, F (snd (m s)) = F s.
Lemma keeps_bind {A B T} (F : BeaconState -> T) (m : St BeaconState A) (k : A -> St BeaconState B) : keeps F m -> (forall a, keeps F (k a)) -> keeps F (sbind m k).
Proof. intros H1 H2 s. specialize (H1 s). unfold sbind. destruct (m s) as [[a| | |] s']; cbn in *; try exact H1. rewrite H2. exact H1. Qed.
Lemma keeps_rd {A T} (F : BeaconState -> T) (r : BeaconState -> res A) : keeps F (rd r). Proof. intros s. unfold rd. reflexivity. Qed.
Lemma keeps_lift {A T} (F : BeaconState -> T) (r : res A) : keeps F (lift r). Proof. intros s. reflexivity. Qed.
Lemma keeps_ret {A T} (F : BeaconState -> T) (a : A) : keeps F (sret a). Proof. intros s. reflexivity. Qed.
Lemma keeps_md {T} (F : BeaconState -> T) g : (forall s, F (g s) = F s) -> keeps F (md g). Proof. intros H s. apply H. Qed.
Lemma keeps_when {T} (F : BeaconState -> T) c m : keeps F m -> keeps F (swhen c m). Proof. intros H. unfold swhen. destruct c; [exact H|apply keeps_ret]. Qed.
Lemma keeps_for {X T} (F : BeaconState -> T) (l : list X) body : (forall x, keeps F (body x)) -> keeps F (sfor l body).
Proof. intros H. induction l as [|x l IH]; cbn [sfor]; [apply keeps_ret|]. apply keeps_bind; [apply H|]. intros _. exact IH. Qed.
Lemma safe_keep {A T} (F : BeaconState -> T) (R : T -> Prop) P (m : St BeaconState A) Q : keeps F m -> safe P m Q -> safe (fun s => P s /\ R (F s)) m (fun a s => Q a s /\ R (F s)).
Proof. intros Hk H s [Hp Hr]. specialize (H s Hp). specialize (Hk s). destruct (m s) as [[a| | |] s']; cbn in *; auto. rewrite Hk. auto. Qed.
Definition eth_fields (s : BeaconState) := (eth1_data_votes s, eth1_data s, eth1_deposit_index s).
Lemma keeps_header f b : keeps (fun s => (eth_fields s, genesis_time s, next_withdrawal_validator_index s, next_withdrawal_index s, lenN (validators s))) (process_block_header E f b).
Proof.
  unfold process_block_header. apply keeps_bind; [apply keeps_rd|]. intros h. apply keeps_bind; [apply keeps_md; reflexivity|]. intros _. apply keeps_rd.
Qed.
Lemma keeps_randao b : keeps eth_fields (process_randao E b).
Proof. unfold process_randao. apply keeps_bind; [apply keeps_rd|]. intros r. apply keeps_md. reflexivity. Qed.
Lemma keeps_payload f b : keeps eth_fields (process_execution_payload E f b).
Proof. unfold process_execution_payload. apply keeps_bind; [apply keeps_rd|]. intros _. apply keeps_bind; [apply keeps_lift|]. intros h. apply keeps_md. reflexivity. Qed.
Lemma keeps_decrease i a : keeps eth_fields (decrease_balance E i a).
Proof. unfold decrease_balance. apply keeps_bind; [apply keeps_rd|]. intros b. apply keeps_md. reflexivity. Qed.
Lemma keeps_withdrawals f p : keeps eth_fields (process_withdrawals E f p).
Proof.
  unfold process_withdrawals. apply keeps_bind; [apply keeps_rd|]. intros e. cbv zeta.
  apply keeps_bind; [apply keeps_for; intros w; apply keeps_decrease|]. intros _.
  apply keeps_bind; [apply keeps_when; apply keeps_bind; [apply keeps_rd|]; intros _; apply keeps_md; reflexivity|]. intros _.
  apply keeps_bind; [destruct (last_opt (fst e)); [apply keeps_bind; [apply keeps_lift|]; intros i; apply keeps_md; reflexivity|apply keeps_ret]|]. intros _.
  destruct (_ =? _).
  - destruct (last_opt (fst e)); [|destruct (fork_le Electra f); [apply keeps_ret|apply keeps_lift]].
    apply keeps_bind; [apply keeps_lift|]. intros i1. apply keeps_bind; [apply keeps_rd|]. intros i. apply keeps_md. reflexivity.
  - apply keeps_bind; [apply keeps_rd|]. intros i. apply keeps_md. reflexivity.
Qed.

Lemma safe_header f L n d g b : safe (fun s => 0 < slot s -> blk f L n d g s) (process_block_header E f b) (fun _ => blk f L n d g).
Proof.
  intros s K0. unfold process_block_header. destruct (N.eq_dec (slot s) 0) as [Hz|Hz].
  { unfold sbind, rd. unfold require at 1. destruct (bk_slot b =? slot s) eqn:He; [|exact I]. apply N.eqb_eq in He. cbn [rbind].
    unfold require at 1. destruct (N.ltb_spec (bh_slot (latest_block_header s)) (bk_slot b)); [lia|]. exact I. }
  assert (K : blk f L n d g s) by (apply K0; lia). clear K0 Hz. revert s K.
  apply (safe_rdX _ _ _ (fun _ => bk_proposer_index b < L)).
  - intros s K. do 2 (apply np_req; intros _). apply (np_bind _ _ (fun p => p < L)); [eapply np_proposer; [exact K|auto]|]. intros p Hp.
    apply np_req. intros He. apply N.eqb_eq in He. apply np_skip; [apply np_htr; auto|]. intros x. apply np_req. intros _.
    apply np_skip; [apply np_htr; auto|]. intros y. apply np_ok. congruence.
  - intros h Hi. apply (safe_seq _ _ _ (blk f L n d g)).
    + apply safe_md. intros s [K1 K2 K3 K4 K5 K6 K7 K8 K9 K10 K11 K12 K13 K14 K15 K16]. constructor; auto.
    + intros _. apply safe_rd. intros s K. apply np_skip; [apply np_idx; [rewrite (k_L _ _ _ _ _ _ K); exact Hi|auto]|]. intros v. apply np_require. auto.
Qed.
Lemma safe_eth1 f L n d g b : safe (fun s => blk f L n d g s /\ lenN (eth1_data_votes s) < 2 ^ 60 /\ eth1_deposit_index s <= e1_deposit_count (eth1_data s) /\ vote_keeps_deposits E b s)
  (process_eth1_data E b) (fun _ s => blk f L n d g s /\ eth1_deposit_index s <= e1_deposit_count (eth1_data s)).
Proof.
  intros s (K & Hv & Hi & Hk). rewrite (eth1_run E b s); [|pows; lia|destruct Hbs as (_ & _ & _ & H & _); rewrite U64_val; pows; lia].
  unfold eth1_after. set (dd := bb_eth1_data b). set (votes := eth1_data_votes s ++ [dd]).
  destruct K as [K1 K2 K3 K4 K5 K6 K7 K8 K9 K10 K11 K12 K13 K14 K15 K16]. split; [constructor; auto|].
  gs. destruct (N.ltb_spec (voting_period E) (2 * votes_for dd votes)) as [Hmaj|]; [|exact Hi]. apply Hk. exact Hmaj.
Qed.
(** loops that spend units, and loops over deposits *)
Lemma safe_units {X} f d g (c : X -> N) (body : X -> St BeaconState unit) l k :
  (forall L x m, safe (blk f L (m + c x) d g) (body x) (fun _ => blk f L m d g)) -> safe (blkE f (k + sumN (map c l)) d g) (sfor l body) (fun _ => blkE f k d g).
Proof. intros H. apply (safe_for (fun m => blkE f m d g) c). intros x m _. apply safe_blkE. intros L. apply H. Qed.
Lemma safe_deposits f : f <> Electra -> forall l n d g,
  safe (blkE f (n + lenN l) (d + lenN l) (g + sumN (map (fun dep => dd_amount (dep_data dep)) l))) (sfor l (process_deposit E f)) (fun _ => blkE f n d g).
Proof.
  intros Hf. induction l as [|x l IH]; intros n d g; cbn [sfor map].
  - apply safe_ret. intros s. change (lenN (@nil Deposit)) with 0. change (sumN []) with 0. rewrite !N.add_0_r. auto.
  - rewrite lenN_cons, sumN_cons. apply (safe_seq _ _ _ (blkE f (n + lenN l) (d + lenN l) (g + sumN (map (fun dep => dd_amount (dep_data dep)) l)))); [|intros _; apply IH].
    eapply safe_pre; [|apply safe_deposit; exact Hf]. intros s K. cbv beta in *.
    replace (n + lenN l + 1) with (n + (lenN l + 1)) by lia. replace (d + lenN l + 1) with (d + (lenN l + 1)) by lia.
    replace (g + sumN (map (fun dep => dd_amount (dep_data dep)) l) + dd_amount (dep_data x)) with (g + (dd_amount (dep_data x) + sumN (map (fun dep => dd_amount (dep_data dep)) l))) by lia. exact K.
Qed.
Lemma sum_const {X} c (l : list X) : sumN (map (fun _ => c) l) = c * lenN l.
Proof. induction l as [|x l IH]; [cbn [map]; change (lenN (@nil X)) with 0; change (sumN []) with 0; lia|]. cbn [map]. rewrite sumN_cons, lenN_cons, IH. lia. Qed.
Definition slash_cost (b : BeaconBlockBody) : N := sumN (map (fun op => 3 * lenN (ia_attesting_indices (as_1 op))) (bb_attester_slashings b)).
Definition deposit_gwei (b : BeaconBlockBody) : N := sumN (map (fun dep => dd_amount (dep_data dep)) (bb_deposits b)).
Definition op_cost (b : BeaconBlockBody) : N :=
  lenN (bb_voluntary_exits b) + lenN (bb_deposits b) + 16 * lenN (bb_attestations b) + slash_cost b + 3 * lenN (bb_proposer_slashings b).
Lemma safe_operations f n b : f <> Electra ->
  safe (fun s => blkE f (n + op_cost b) (lenN (bb_deposits b)) (deposit_gwei b) s /\ eth1_deposit_index s <= e1_deposit_count (eth1_data s))
    (process_operations E f b) (fun _ => blkE f n 0 0).
Proof.
  intros Hf. unfold process_operations. apply (safe_rdX _ _ _ (fun _ => True)).
  { intros s [_ Hi]. assert (Hgoal : np (let! d := sub E (e1_deposit_count (eth1_data s)) (eth1_deposit_index s) in
      require (lenN (bb_deposits b) =? N.min (MAX_DEPOSITS E) d) EDepIncorrectCount) (fun _ => True)); [|unfold deposit_count_check; destruct f; try exact Hgoal; contradiction].
    apply np_skip; [apply np_sub; [exact Hi|exact I]|]. intros dd. apply np_require. auto. }
  intros _ _. set (D := lenN (bb_deposits b)). set (G := deposit_gwei b).
  apply (safe_pre (blkE f (n + op_cost b) D G)); [intros s [K _]; exact K|].
  set (n1 := n + lenN (bb_voluntary_exits b)). set (n2 := n1 + D). set (n3 := n2 + sumN (map (fun _ => 16) (bb_attestations b))).
  set (n4 := n3 + slash_cost b).
  replace (n + op_cost b) with (n4 + sumN (map (fun _ => 3) (bb_proposer_slashings b))).
  2:{ unfold n4, n3, n2, n1, op_cost. rewrite !sum_const. unfold D. lia. }
  apply (safe_seq _ _ _ (blkE f n4 D G)); [apply safe_units; intros L x m; apply safe_pslash|]. intros _.
  apply (safe_seq _ _ _ (blkE f n3 D G)); [apply (safe_units f D G (fun op => 3 * lenN (ia_attesting_indices (as_1 op)))); intros L x m; apply safe_aslash|]. intros _.
  apply (safe_seq _ _ _ (blkE f n2 D G)); [apply safe_units; intros L x m; apply safe_att; exact Hf|]. intros _.
  apply (safe_seq _ _ _ (blkE f n1 0 0)); [exact (safe_deposits f Hf (bb_deposits b) n1 0 0)|]. intros _.
  apply (safe_seq _ _ _ (blkE f n 0 0)).
  { replace n1 with (n + sumN (map (fun _ => 1) (bb_voluntary_exits b))) by (unfold n1; rewrite sum_const; lia). apply safe_units. intros L x m. apply safe_ve. exact Hf. }
  intros _. apply (safe_seq _ _ _ (blkE f n 0 0)).
  - apply safe_when; [|auto]. intros _. replace n with (n + sumN (map (fun _ => 0) (bb_bls_to_execution_changes b))) at 1 by (rewrite sum_const; lia).
    apply safe_units. intros L x m. rewrite N.add_0_r. apply safe_bls.
  - intros _. replace (fork_le Electra f) with false by (destruct f; try reflexivity; contradiction). apply safe_ret. auto.
Qed.

Lemma block_start f b s : block_bounds E f s -> block_fits b -> f <> Electra -> 0 < slot s ->
  blk f (lenN (validators s)) (16 + op_cost b) (lenN (bb_deposits b)) (deposit_gwei b) s.
Proof.
  intros B (F1 & F2 & F3 & F4 & F5 & F6) Hf Hpos.
  assert (Hcost : 16 + op_cost b <= 400000).
  { unfold op_cost, slash_cost. replace (sumN (map (fun op => 3 * lenN (ia_attesting_indices (as_1 op))) (bb_attester_slashings b))) with (3 * sumN (map (fun op => lenN (ia_attesting_indices (as_1 op))) (bb_attester_slashings b))).
    - change (2 ^ 8) with 256 in *. change (2 ^ 17) with 131072 in F2. lia.
    - clear. induction (bb_attester_slashings b) as [|x l IH]; [reflexivity|]. cbn [map]. rewrite !sumN_cons, <- IH. lia. }
  set (n := 16 + op_cost b) in *. clearbody n. fold (deposit_gwei b) in F6. set (g := deposit_gwei b) in *. clearbody g. set (d := lenN (bb_deposits b)) in *. clearbody d.
  change (2 ^ 8) with 256 in F4. destruct B as [B1 B2 B3 B4 B5 B6 B7 B8 B9 B10 B11 B12 B13 B14].
  constructor; auto.
  - change (2 ^ 39) with 549755813888 in *. pows. lia.
  - change (2 ^ 41) with 2199023255552. change (2 ^ 57) with 144115188075855872. pows. lia.
  - intros x Hx. specialize (B7 x Hx). change (2 ^ 42) with 4398046511104. pows. lia.
  - intros x Hx. specialize (B8 x Hx). change (2 ^ 42) with 4398046511104. pows. lia.
  - split; [|intros He; contradiction]. rewrite room_not_electra by exact Hf. exists (2 ^ 61). split; [exact B9|]. change (2 ^ 61) with 2305843009213693952. split; [|pows; lia].
    unfold earliest_exit. pose proof (epoch_small E Hctx s B3). assert (MAX_SEED_LOOKAHEAD E <= 4294967296) by (clear - Hctx; ctxs Hctx; lia). pows. lia.
  - destruct B14 as (_ & H & _). change (2 ^ 63) with 9223372036854775808. pows. lia.
  - change (2 ^ 42) with 4398046511104. pows. lia.
  - intros He. contradiction.
Qed.

Theorem block_safe f b s : f <> Electra -> block_bounds E f s -> block_fits (bk_body b) -> vote_keeps_deposits E (bk_body b) s ->
  fst (process_block E f b s) <> Panic.
Proof.
  intros Hf B Hfit Hvote. set (body := bk_body b) in *.
  set (L := lenN (validators s)). set (n := 16 + op_cost body). set (d := lenN (bb_deposits body)). set (g := deposit_gwei body).
  set (R1 := fun F : list Eth1Data * Eth1Data * N => lenN (fst (fst F)) < 2 ^ 60 /\ snd F <= e1_deposit_count (snd (fst F))
     /\ (has_majority E (bb_eth1_data body) (fst (fst F) ++ [bb_eth1_data body]) -> snd F <= e1_deposit_count (bb_eth1_data body))).
  set (R2 := fun F : list Eth1Data * Eth1Data * N * N * N * N * N => let '(e, gt, nv, ni, lv) := F in R1 e /\ gt < 2 ^ 62 /\ (from_capella f -> nv < lv /\ ni < 2 ^ 62)).
  assert (Hsafe : safe (fun t => (0 < slot t -> blk f L n d g t) /\ R2 (eth_fields t, genesis_time t, next_withdrawal_validator_index t, next_withdrawal_index t, lenN (validators t)))
    (process_block E f b) (fun _ _ => True)).
  - unfold process_block. cbv zeta. fold body.
    eapply safe_bind; [apply (safe_keep (fun s => (eth_fields s, genesis_time s, next_withdrawal_validator_index s, next_withdrawal_index s, lenN (validators s))) R2); [apply keeps_header|apply safe_header]|].
    intros u. cbv beta.
    apply (safe_seq _ _ _ (fun t => blk f L n d g t /\ R1 (eth_fields t))).
    { assert (Hw : fork_le Capella f = true -> safe (fun t => blk f L n d g t /\ R2 (eth_fields t, genesis_time t, next_withdrawal_validator_index t, next_withdrawal_index t, lenN (validators t)))
        (process_withdrawals E f (bb_execution_payload body) ;; process_execution_payload E f body) (fun _ t => blk f L n d g t /\ R1 (eth_fields t))).
      { intros Hcap. apply (safe_seq _ _ _ (fun t => (blk f L n d g t /\ genesis_time t < 2 ^ 62) /\ R1 (eth_fields t))).
        - eapply safe_pre; [|apply (safe_keep eth_fields R1); [apply keeps_withdrawals|apply safe_withdrawals; exact Hf]].
          intros t (K & H1 & H2 & H3). cbv beta. specialize (H3 ltac:(unfold from_capella, from_deneb; clear - Hcap; destruct f; try discriminate; auto)). tauto.
        - intros _. apply (safe_keep eth_fields R1); [apply keeps_payload|apply safe_payload]. }
      destruct f; try (apply Hw; reflexivity); try contradiction.
      - apply safe_ret. intros t (K & H1 & _). auto.
      - apply safe_ret. intros t (K & H1 & _). auto.
      - apply (safe_rdX _ _ _ (fun _ => True)); [intros t _; exact I|]. intros en _. apply safe_when; [|intros _ t (K & H1 & _); auto]. intros _.
        eapply safe_pre; [|apply (safe_keep eth_fields R1); [apply keeps_payload|apply safe_payload]]. intros t (K & H1 & H2 & _). auto. }
    intros _. apply (safe_seq _ _ _ (fun t => blk f L n d g t /\ R1 (eth_fields t))); [apply (safe_keep eth_fields R1); [apply keeps_randao|apply safe_randao]|].
    intros _. apply (safe_seq _ _ _ (fun t => blkE f n d g t /\ eth1_deposit_index t <= e1_deposit_count (eth1_data t))).
    { eapply safe_imp; [apply (safe_eth1 f L n d g body)| |].
      - intros t (K & H1 & H2 & H3). auto.
      - intros _ t [K H]. split; [exists L; exact K|exact H]. }
    intros _. apply (safe_seq _ _ _ (blkE f 16 0 0)); [apply safe_operations; exact Hf|]. intros _.
    apply safe_when; [|auto]. intros Hal. apply safe_any. intros L'. eapply safe_imp; [apply (safe_sync f L' 0 0 0)| |auto]; [|intros t K; exact K]. destruct f; discriminate.
  - assert (Hpre : (0 < slot s -> blk f L n d g s) /\ R2 (eth_fields s, genesis_time s, next_withdrawal_validator_index s, next_withdrawal_index s, lenN (validators s))).
    { split; [intros Hpos; apply block_start; assumption|]. destruct (bb_eth1 _ _ _ B) as (V1 & V2 & V3). split; [split; [exact V1|split; [exact V3|exact Hvote]]|].
      split; [exact (bb_genesis _ _ _ B)|exact (bb_sweep _ _ _ B)]. }
    specialize (Hsafe s Hpre). destruct (process_block E f b s) as [[x| | |] s']; cbn; try discriminate. destruct Hsafe.
Qed.
End C.
