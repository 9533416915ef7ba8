(** * Validator keys and keystores (C72) *)
From Verif Require Import Base BaseLemmas Blobs Keys SpecKeys BlobProofs BlockProofs FinalityProofs RewardProofs FlowProofs.

(** the external functions return as many bytes as they should *)
Definition key_oracles_wf (K : KeyOracles) : Prop :=
  (forall b, lenN (k_hash K b) = 32) /\ (forall s i info n, lenN (k_hkdf K s i info n) = n)
  /\ (forall k b, lenN (k_aes K k b) = 16) /\ (forall p s, lenN (k_scrypt K p s) = 32).

Lemma order_eq : group_order = BLS_MODULUS. Proof. vm_compute. reflexivity. Qed.
Lemma of_be_to_be n x : x < 256 ^ N.of_nat n -> of_be (to_be n x) = x.
Proof. intros H. unfold of_be, to_be. rewrite rev_involutive. apply of_le_to_le_id. exact H. Qed.
Lemma lenN_to_be n x : lenN (to_be n x) = N.of_nat n.
Proof. unfold to_be, lenN. rewrite rev_length. f_equal. revert x. induction n as [|n IH]; intros x; cbn [to_le length]; [reflexivity|rewrite IH; reflexivity]. Qed.
Lemma to_le_small n x k : x < 256 ^ N.of_nat n -> to_le (n + k) x = to_le n x ++ repeat 0 k.
Proof.
  revert x. induction n as [|n IH]; intros x Hx.
  - change (256 ^ N.of_nat 0) with 1 in Hx. replace x with 0 by lia. cbn [Nat.add to_le app]. clear. induction k as [|k IH]; [reflexivity|]. cbn [to_le repeat]. change (0 / 256) with 0. rewrite IH. reflexivity.
  - cbn [Nat.add to_le app]. f_equal. apply IH. rewrite Nnat.Nat2N.inj_succ, N.pow_succ_r' in Hx. apply N.div_lt_upper_bound; lia.
Qed.
(** dropping the leading zero bytes keeps the value *)
Lemma truncate key : key < 2 ^ 256 -> of_be (skipN 16 (to_be 48 key)) = key.
Proof.
  intros H. unfold to_be. change 48%nat with (32 + 16)%nat. rewrite to_le_small by exact H. rewrite rev_app_distr.
  replace (skipN 16 (rev (repeat 0 16) ++ rev (to_le 32 key))) with (rev (to_le 32 key)) by reflexivity. apply of_be_to_be. exact H.
Qed.
Lemma skipn_twice {A} a b (l : list A) : skipn a (skipn b l) = skipn (b + a) l.
Proof. revert l. induction b as [|b IH]; intros l; [reflexivity|]. destruct l as [|x l]; [rewrite !skipn_nil; reflexivity|]. cbn [skipn Nat.add]. apply IH. Qed.
Section Loop.
Variable K : KeyOracles.
Variable dbg : bool.
Lemma loop_spec ikm : forall fuel n, (forall m, (m < n)%nat -> attempt K ikm m = 0) ->
  match hkdf_mod_r_loop K fuel (ikm ++ [0]) (Nat.iter (S n) (k_hash K) SALT) with
  | Ok k => is_key K ikm k /\ k < group_order
  | Diverge => forall m, (m < n + fuel)%nat -> attempt K ikm m = 0
  | _ => False
  end.
Proof.
  induction fuel as [|fuel IH]; intros n Hn; cbn [hkdf_mod_r_loop]; [rewrite Nat.add_0_r; exact Hn|].
  change (of_be (k_hkdf K (Nat.iter (S n) (k_hash K) SALT) (ikm ++ [0]) [0; KEY_L] KEY_L) mod BLS_MODULUS) with (of_be (k_hkdf K (Nat.iter (S n) (k_hash K) SALT) (ikm ++ [0]) [0; 48] 48) mod BLS_MODULUS).
  rewrite <- order_eq. change (of_be (k_hkdf K (Nat.iter (S n) (k_hash K) SALT) (ikm ++ [0]) [0; 48] 48) mod group_order) with (attempt K ikm n).
  destruct (N.eqb_spec (attempt K ikm n) 0) as [H|H].
  - change (k_hash K (Nat.iter (S n) (k_hash K) SALT)) with (Nat.iter (S (S n)) (k_hash K) SALT). specialize (IH (S n)).
    replace (n + S fuel)%nat with (S n + fuel)%nat by lia. apply IH. intros m Hm. destruct (Nat.eq_dec m n) as [->|Hne]; [exact H|apply Hn; lia].
  - split; [exists n; auto|]. unfold attempt. apply N.mod_lt. rewrite order_eq. discriminate.
Qed.
Lemma hkdf_mod_r_spec fuel ikm :
  match hkdf_mod_r K dbg fuel ikm with
  | Ok k => is_key K ikm k /\ 0 < k < group_order
  | Diverge => forall m, (m < fuel)%nat -> attempt K ikm m = 0
  | _ => False
  end.
Proof.
  unfold hkdf_mod_r. pose proof (loop_spec ikm fuel 0 ltac:(intros m Hm; lia)) as H. cbn [Nat.iter nat_rect] in H.
  destruct (hkdf_mod_r_loop K fuel (ikm ++ [0]) (k_hash K SALT)) as [k|e| |]; cbn [rbind]; try contradiction; [|exact H].
  destruct H as [H1 H2]. assert (Hm : k mod BLS_MODULUS = k) by (rewrite order_eq in H2; apply N.mod_small; exact H2).
  assert (Ht : of_be (skipN 16 (to_be 48 k)) = k) by (apply truncate; eapply N.lt_trans; [exact H2|]; vm_compute; reflexivity).
  destruct dbg; cbn [rassert rbind]; rewrite ?Hm, ?N.eqb_refl; cbn [rassert rbind]; rewrite Ht; (split; [exact H1|]); (split; [|exact H2]); destruct H1 as (n & _ & H1 & _); lia.
Qed.
Lemma is_key_unique ikm k1 k2 : is_key K ikm k1 -> is_key K ikm k2 -> k1 = k2.
Proof.
  intros (n1 & A1 & Z1 & F1) (n2 & A2 & Z2 & F2). destruct (Nat.lt_trichotomy n1 n2) as [H|[H|H]].
  - specialize (F2 _ H). congruence.
  - congruence.
  - specialize (F1 _ H). congruence.
Qed.
Lemma at_path_unique seed p k1 : at_path K seed p k1 -> forall k2, at_path K seed p k2 -> k1 = k2.
Proof.
  induction 1 as [k H|p parent i k H1 IH H2]; intros k2 X; inversion X as [k' H' E1 E2|p' parent' i' k' H1' H2' E1 E2]; subst.
  - eapply is_key_unique; eassumption.
  - destruct p'; discriminate.
  - destruct p; discriminate.
  - apply app_inj_tail in E1 as [-> ->]. rewrite (IH _ H1') in H2. eapply is_key_unique; eassumption.
Qed.

Lemma chunks_pieces : forall k l s, chunks k 32 (skipN (32 * s) l) = map (piece l) (seqN s k).
Proof.
  induction k as [|k IH]; intros l s; [reflexivity|]. cbn [chunks seqN map]. f_equal. rewrite <- IH. f_equal. unfold skipN. rewrite skipn_twice. f_equal. lia.
Qed.
Lemma lamport_half_spec ikm salt : key_oracles_wf K -> exists l, ikm_to_lamport_secret_key K dbg ikm salt = Ok l /\ concat (map (k_hash K) l) = lamport_half K ikm salt /\ lenN l = 255.
Proof.
  intros (_ & Hl & _). unfold ikm_to_lamport_secret_key, bytes_split, LAMPORT_L, KEY_K, LAMPORT_COUNT. change (32 * 255) with 8160.
  exists (chunks_exact 32 (k_hkdf K salt ikm [] 8160)). split.
  - destruct dbg; [|reflexivity]. rewrite Hl. reflexivity.
  - unfold chunks_exact. rewrite Hl. change (N.to_nat (8160 / 32)) with (N.to_nat 255). split; [|exact (f_equal N.of_nat (chunks_count 32 (k_hkdf K salt ikm [] 8160) (N.to_nat 255)))].
    unfold lamport_half, rangeN. set (okm := k_hkdf K salt ikm [] 8160). rewrite <- (map_map (piece okm) (k_hash K)). f_equal. f_equal. exact (chunks_pieces (N.to_nat 255) okm 0).
Qed.
Lemma flip_bits_spec l : Forall (fun b => b < 256) l -> flip_bits l = map (fun b => N.lxor b 255) l.
Proof.
  intros H. apply map_ext_in. intros b Hb. rewrite Forall_forall in H. specialize (H _ Hb). cbv beta in H.
  assert (Hx : N.lxor b 255 = N.ldiff 255 b).
  { apply N.bits_inj. intros i. rewrite N.lxor_spec, N.ldiff_spec. destruct (N.lt_ge_cases i 8) as [Hi|Hi].
    - replace (N.testbit 255 i) with true by (change 255 with (N.ones 8); rewrite N.ones_spec_low by exact Hi; reflexivity). destruct (N.testbit b i); reflexivity.
    - replace (N.testbit 255 i) with false by (change 255 with (N.ones 8); rewrite N.ones_spec_high by exact Hi; reflexivity).
      rewrite (proj2 (N.testbit_false b i)); [reflexivity|]. rewrite N.div_small; [reflexivity|]. apply N.lt_le_trans with (2 ^ 8); [exact H|apply N.pow_le_mono_r; lia]. }
  rewrite Hx. apply N.sub_nocarry_ldiff. apply N.bits_inj. intros i. rewrite N.ldiff_spec, N.bits_0. destruct (N.testbit b i) eqn:Hb'; [|reflexivity]. cbn [andb].
  destruct (N.lt_ge_cases i 8) as [Hi|Hi]; [change 255 with (N.ones 8); rewrite N.ones_spec_low by exact Hi; reflexivity|].
  exfalso. rewrite (proj2 (N.testbit_false b i)) in Hb'; [discriminate|]. rewrite N.div_small; [reflexivity|]. apply N.lt_le_trans with (2 ^ 8); [exact H|apply N.pow_le_mono_r; lia].
Qed.
Lemma concat_len {A} n (l : list (list A)) : Forall (fun c => lenN c = n) l -> lenN (concat l) = n * lenN l.
Proof. induction 1 as [|c l Hc _ IH]; [symmetry; apply N.mul_0_r|]. cbn [concat]. rewrite lenN_app, lenN_cons, Hc, IH. lia. Qed.
Lemma lamport_spec key index : key_oracles_wf K -> parent_key_to_lamport_public_key K dbg key index = Ok (lamport_public K key index).
Proof.
  intros Hw. unfold parent_key_to_lamport_public_key, lamport_public. rewrite flip_bits_spec by (unfold to_be; apply Forall_rev, to_le_bytes).
  destruct (lamport_half_spec (to_be 32 key) (to_be 4 index) Hw) as (l0 & -> & E0 & L0). cbn [rbind].
  destruct (lamport_half_spec (map (fun b => N.lxor b 255) (to_be 32 key)) (to_be 4 index) Hw) as (l1 & -> & E1 & L1). cbn [rbind]. rewrite <- E0, <- E1.
  destruct dbg; [|reflexivity]. replace (lenN (concat (map (k_hash K) l0) ++ concat (map (k_hash K) l1))) with 16320; [reflexivity|].
  rewrite lenN_app, !(concat_len 32) by (apply Forall_forall; intros x Hx; apply in_map_iff in Hx as (y & <- & _); apply Hw). unfold lenN in *. rewrite !map_length. lia.
Qed.
End Loop.

(** ** C72: derived keys *)
Section Derive.
Variable K : KeyOracles.
Variable dbg : bool.
Hypothesis Hw : key_oracles_wf K.
Lemma child_spec fuel parent i : match derive_child_key K dbg fuel parent i with
  | Ok k => is_key K (lamport_public K parent i) k /\ 0 < k < group_order
  | Diverge => forall m, (m < fuel)%nat -> attempt K (lamport_public K parent i) m = 0
  | _ => False end.
Proof. unfold derive_child_key. rewrite lamport_spec by exact Hw. cbn [rbind]. apply hkdf_mod_r_spec. Qed.
Lemma pair_spec seed key path : at_path K seed path key -> 0 < key < group_order -> exists kp, to_key_pair K key path = Ok kp /\ pair_at K seed path kp.
Proof.
  intros Hp Hk. assert (Hb : key < 256 ^ N.of_nat 32) by (eapply N.lt_trans; [apply Hk|]; vm_compute; reflexivity).
  assert (Hv : of_be (to_be 32 key) = key) by (apply of_be_to_be; exact Hb).
  unfold to_key_pair, to_bls_secret_key, secret_key_try_from. rewrite Hv, lenN_to_be. change (N.of_nat 32 =? 32) with true.
  pose proof order_eq as Ho. replace (0 <? key) with true by lia. replace (key <? BLS_MODULUS) with true by lia. cbn [andb rbind]. eexists. split; [reflexivity|].
  repeat split; cbn [kp_path kp_public kp_private]; try apply lenN_to_be; try (unfold to_be; apply Forall_rev, to_le_bytes); rewrite Hv; try exact Hp; apply Hk.
Qed.
Lemma validator_spec seed fuel root i : at_path K seed [] root ->
  match derive_validator_keys K dbg fuel root i with
  | Ok (s, w) => pair_at K seed [12381; 3600; i; 0; 0] s /\ pair_at K seed [12381; 3600; i; 0] w
  | Diverge => exists ikm, forall m, (m < fuel)%nat -> attempt K ikm m = 0
  | _ => False
  end.
Proof.
  intros H0. unfold derive_validator_keys. cbn [rfold].
  pose proof (child_spec fuel root 12381) as C1. destruct (derive_child_key K dbg fuel root 12381) as [k1|e| |]; cbn [rbind]; try contradiction; [|eauto]. destruct C1 as [C1 _].
  pose proof (path_child K seed [] root 12381 k1 H0 C1) as P1.
  pose proof (child_spec fuel k1 3600) as C2. destruct (derive_child_key K dbg fuel k1 3600) as [k2|e| |]; cbn [rbind]; try contradiction; [|eauto]. destruct C2 as [C2 _].
  pose proof (path_child K seed _ k1 3600 k2 P1 C2) as P2.
  pose proof (child_spec fuel k2 i) as C3. destruct (derive_child_key K dbg fuel k2 i) as [k3|e| |]; cbn [rbind]; try contradiction; [|eauto]. destruct C3 as [C3 _].
  pose proof (path_child K seed _ k2 i k3 P2 C3) as P3.
  pose proof (child_spec fuel k3 0) as C4. destruct (derive_child_key K dbg fuel k3 0) as [k4|e| |]; cbn [rbind]; try contradiction; [|eauto]. destruct C4 as [C4 B4].
  pose proof (path_child K seed _ k3 0 k4 P3 C4) as P4.
  pose proof (child_spec fuel k4 0) as C5. destruct (derive_child_key K dbg fuel k4 0) as [k5|e| |]; cbn [rbind]; try contradiction; [|eauto]. destruct C5 as [C5 B5].
  pose proof (path_child K seed _ k4 0 k5 P4 C5) as P5. cbn [app] in P4, P5.
  destruct (pair_spec _ _ _ P5 B5) as (s & -> & Hs). cbn [rbind]. destruct (pair_spec _ _ _ P4 B4) as (w & -> & Hw'). cbn [rbind]. auto.
Qed.
End Derive.
(** key [i] of the generated lists is the EIP-2333 key at the EIP-2334 path of validator [start + i]; generation never panics, and can only fail to stop when
    every one of the first [fuel] attempts of some derivation gives zero *)
Theorem C72_generate : forall (K : KeyOracles) (dbg : bool) (fuel : nat) (seed : bytes) (start end_ : N), key_oracles_wf K ->
  match generate K dbg fuel seed start end_ with
  | Ok (signing, withdrawal) => lenN signing = end_ - start /\ lenN withdrawal = end_ - start
      /\ (forall i kp, nthN signing i = Some kp -> pair_at K seed [12381; 3600; start + i; 0; 0] kp)
      /\ (forall i kp, nthN withdrawal i = Some kp -> pair_at K seed [12381; 3600; start + i; 0] kp)
  | Diverge => exists ikm, forall m, (m < fuel)%nat -> attempt K ikm m = 0
  | Err _ | Panic => False
  end.
Proof.
  intros K dbg fuel seed start end_ Hw. unfold generate, derive_master_sk. pose proof (hkdf_mod_r_spec K dbg fuel seed) as Hm.
  destruct (hkdf_mod_r K dbg fuel seed) as [root|e| |]; cbn [rbind]; try contradiction; [|eauto]. destruct Hm as [Hm _]. pose proof (path_master K seed root Hm) as Hp.
  assert (Hr : match rmap (fun i => derive_validator_keys K dbg fuel root i) (seqN start (N.to_nat (end_ - start))) with
    | Ok _ => True | Diverge => exists ikm, forall m, (m < fuel)%nat -> attempt K ikm m = 0 | _ => False end).
  { generalize (seqN start (N.to_nat (end_ - start))). clear - Hw Hp. induction l as [|i l IH]; cbn [rmap]; [exact I|].
    pose proof (validator_spec K dbg Hw seed fuel root i Hp) as Hv. destruct (derive_validator_keys K dbg fuel root i) as [[a b]|e| |]; cbn [rbind]; try contradiction; [|exact Hv].
    destruct (rmap _ l) as [ys|e| |]; cbn [rbind]; try contradiction; [exact I|exact IH]. }
  destruct (rmap _ _) as [keys|e| |] eqn:Hk; cbn [rbind]; try contradiction; [|exact Hr]. clear Hr.
  assert (Hl : lenN keys = end_ - start) by (apply rmap_ok, Forall2_len in Hk; rewrite <- Hk, lenN_seqN; lia).
  assert (Hn : forall i x, nthN keys i = Some x -> pair_at K seed [12381; 3600; start + i; 0; 0] (fst x) /\ pair_at K seed [12381; 3600; start + i; 0] (snd x)).
  { intros i x Hx. pose proof (nthN_some _ _ _ Hx) as Hi. destruct (rmap_nth _ _ _ Hk _ _ Hx) as (j & Hj & Hd). rewrite nthN_seqN in Hj by lia. injection Hj as <-.
    pose proof (validator_spec K dbg Hw seed fuel root (start + i) Hp) as Hv. rewrite Hd in Hv. destruct x as [a b]. exact Hv. }
  split; [unfold lenN in *; rewrite map_length; exact Hl|]. split; [unfold lenN in *; rewrite map_length; exact Hl|].
  split; intros i kp H; rewrite nthN_map in H; destruct (nthN keys i) as [x|] eqn:Hx; cbn in H; try discriminate; injection H as <-; apply (Hn _ _ Hx).
Qed.
(** so the keys of a validator depend only on the seed and its index *)
Theorem C72_deterministic : forall (K : KeyOracles) (seed : bytes) (path : list N) (kp1 kp2 : KeyPair), pair_at K seed path kp1 -> pair_at K seed path kp2 -> kp1 = kp2.
Proof.
  intros K seed path [p1 q1 r1] [p2 q2 r2] (A1 & B1 & C1 & F1 & D1 & _) (A2 & B2 & C2 & F2 & D2 & _). cbn [kp_path kp_public kp_private] in *.
  pose proof (at_path_unique _ _ _ _ D1 _ D2) as Hv. assert (Hp : p1 = p2).
  { unfold of_be in Hv.
    rewrite <- (rev_involutive p1), <- (rev_involutive p2). f_equal. rewrite <- (to_le_of_le (rev p1)), <- (to_le_of_le (rev p2)) by (apply Forall_rev; assumption).
    rewrite Hv. f_equal. rewrite !rev_length. unfold lenN in *. lia. }
  subst. reflexivity.
Qed.
(** generation succeeds when no first attempt gives zero *)
Theorem C72_generate_succeeds : forall (K : KeyOracles) (dbg : bool) (fuel : nat) (seed : bytes) (start end_ : N), key_oracles_wf K -> fuel <> 0%nat ->
  (forall ikm, attempt K ikm 0 <> 0) -> exists signing withdrawal, generate K dbg fuel seed start end_ = Ok (signing, withdrawal).
Proof.
  intros K dbg fuel seed start end_ Hw Hf Ha. pose proof (C72_generate K dbg fuel seed start end_ Hw) as H. destruct (generate K dbg fuel seed start end_) as [[a b]|e| |]; try contradiction; [eauto|].
  destruct H as [ikm H]. exfalso. apply (Ha ikm). apply H. lia.
Qed.

(** ** C72: keystores *)
Lemma iv_split iv : lenN iv = 16 -> Forall (fun b => b < 256) iv -> of_be iv = of_be (firstN 8 iv) * 2 ^ 64 + of_be (skipN 8 iv).
Proof.
  intros Hl Hb. rewrite <- (firstn_skipn 8 iv) at 1. unfold firstN, skipN. change (N.to_nat 8) with 8%nat. unfold of_be. rewrite rev_app_distr.
  assert (Ha : forall a b, of_le (a ++ b) = of_le a + 256 ^ lenN a * of_le b).
  { induction a as [|x a IH]; intros b; [cbn; destruct (of_le b); reflexivity|]. cbn [app of_le]. rewrite IH, lenN_cons, N.pow_add_r. lia. }
  rewrite Ha. replace (lenN (rev (skipn 8 iv))) with 8; [change (256 ^ 8) with (2 ^ 64); lia|]. unfold lenN in *. rewrite rev_length, skipn_length. lia.
Qed.
Lemma block_eq iv i : lenN iv = 16 -> Forall (fun b => b < 256) iv -> of_be (skipN 8 iv) + i < 2 ^ 64 -> ctr64_block iv i = counter_block iv i.
Proof.
  intros Hl Hb Hi. unfold ctr64_block, counter_block. rewrite N.mod_small by exact Hi. rewrite (iv_split iv Hl Hb).
  set (hi := of_be (firstN 8 iv)). set (lo := of_be (skipN 8 iv)) in *.
  assert (Hh : to_be 8 hi = firstN 8 iv).
  { unfold hi, to_be, of_be. rewrite <- (rev_involutive (firstN 8 iv)) at 2. f_equal.
    assert (Hf : length (rev (firstN 8 iv)) = 8%nat) by (unfold lenN, firstN in *; rewrite rev_length, firstn_length; lia).
    rewrite <- Hf at 1. apply to_le_of_le. apply Forall_rev. unfold firstN. apply Forall_forall. intros x Hx. rewrite Forall_forall in Hb. apply Hb. eapply (in_or_app (firstn _ _) (skipn _ _)) in Hx || idtac.
    rewrite <- (firstn_skipn (N.to_nat 8) iv). apply in_or_app. left. exact Hx. }
  assert (Hhi : hi < 2 ^ 64).
  { unfold hi, of_be. assert (X : of_le (rev (firstN 8 iv)) < 256 ^ lenN (rev (firstN 8 iv))).
    - apply of_le_bound. apply Forall_rev. unfold firstN. apply Forall_forall. intros x Hx. rewrite Forall_forall in Hb. apply Hb. rewrite <- (firstn_skipn (N.to_nat 8) iv). apply in_or_app. left. exact Hx.
    - replace (lenN (rev (firstN 8 iv))) with 8 in X by (unfold lenN, firstN in *; rewrite rev_length, firstn_length; lia). exact X. }
  clearbody hi lo. rewrite <- Hh. rewrite (N.mod_small (hi * 2 ^ 64 + lo + i)).
  - unfold to_be. rewrite <- rev_app_distr. f_equal.
    assert (Hs : forall n m x y, x < 256 ^ N.of_nat n -> to_le (n + m) (y * 256 ^ N.of_nat n + x) = to_le n x ++ to_le m y).
    { clear. induction n as [|n IH]; intros m x y Hx.
      - change (256 ^ N.of_nat 0) with 1 in *. replace x with 0 by lia. rewrite N.mul_1_r, N.add_0_r. reflexivity.
      - rewrite Nnat.Nat2N.inj_succ, N.pow_succ_r' in *. cbn [Nat.add to_le app]. set (p := 256 ^ N.of_nat n) in *.
        assert (Hp : p <> 0) by (apply N.pow_nonzero; lia). replace (y * (256 * p) + x) with (x + (y * p) * 256) by lia. rewrite N.mod_add, N.div_add by lia. f_equal.
        rewrite N.add_comm. apply IH. apply N.div_lt_upper_bound; lia. }
    change 16%nat with (8 + 8)%nat. rewrite <- N.add_assoc. symmetry. exact (Hs 8%nat 8%nat (lo + i) hi Hi).
  - change (2 ^ 128) with (2 ^ 64 * 2 ^ 64). nia.
Qed.
Lemma keystore_shape K kp pass salt iv : key_oracles_wf K -> lenN (kp_private kp) = 32 -> lenN iv = 16 ->
  let dk := k_scrypt K (password_bytes K pass) salt in
  exists ks, keystore_new K kp pass salt iv = Ok ks /\ ks_kdf ks = mkKdf salt dk /\ ks_public_key ks = kp_public kp /\ ks_path ks = kp_path kp /\ ks_version ks = 4
    /\ cipher_iv (ks_cipher ks) = iv /\ cipher_message (ks_cipher ks) = xorB (kp_private kp) (k_aes K (firstN 16 dk) (ctr64_block iv 0) ++ k_aes K (firstN 16 dk) (ctr64_block iv 1))
    /\ ks_checksum ks = k_hash K (firstN 16 (skipN 16 dk) ++ cipher_message (ks_cipher ks)).
Proof.
  intros Hw Hp Hiv dk. assert (Hd : lenN dk = 32) by apply Hw. unfold keystore_new, kdf_new.
  assert (Hpw : filter (fun c => negb (is_control c)) (k_nfkd K pass) = filter (fun c => negb ((c <=? 31) || (c =? 127) || ((128 <=? c) && (c <=? 159)))) (k_nfkd K pass)).
  { apply filter_ext. intros c. f_equal. unfold is_control. destruct (N.ltb_spec c 32), (N.leb_spec c 31), (N.leb_spec 127 c), (N.ltb_spec c 160), (N.eqb_spec c 127), (N.leb_spec 128 c), (N.leb_spec c 159); cbn; lia || reflexivity. }
  cbv zeta. rewrite Hpw. fold (password_bytes K pass). fold dk. unfold encryption_key, checksum_salt. cbn [kdf_message]. rewrite Hd. cbn [rbind N.leb N.compare Pos.compare Pos.compare_cont].
  change (16 <=? 32) with true. cbv iota. cbn [rbind]. unfold cipher_new_with_iv. rewrite Hiv. replace (lenN (firstN 16 dk)) with 16 by (unfold lenN, firstN in *; rewrite firstn_length; lia).
  cbn [N.eqb Pos.eqb andb rassert rbind]. eexists. split; [reflexivity|]. cbn [ks_kdf ks_public_key ks_path ks_version ks_cipher cipher_iv cipher_message ks_checksum].
  repeat split.
  - unfold apply_keystream. rewrite Hp. change ((32 + 15) / 16) with 2. change (rangeN 2) with [0; 1]. cbn [map concat]. rewrite app_nil_r. reflexivity.
  - unfold checksum_new. f_equal. f_equal. unfold firstN, skipN in *. rewrite firstn_all2; [reflexivity|]. unfold lenN in Hd. rewrite skipn_length. lia.
Qed.
(** a keystore opens under EIP-2335 with the passphrase it was made with, as long as the low half of the initialization vector is not all ones *)
Theorem C72_keystore_opens : forall (K : KeyOracles) (kp : KeyPair) (pass : list N) (salt iv : bytes), key_oracles_wf K -> lenN (kp_private kp) = 32 ->
  lenN iv = 16 -> Forall (fun b => b < 256) iv -> of_be (skipN 8 iv) <> 2 ^ 64 - 1 ->
  exists ks, keystore_new K kp pass salt iv = Ok ks /\ decrypt K ks pass = Some (kp_private kp) /\ ks_public_key ks = kp_public kp /\ ks_path ks = kp_path kp /\ ks_version ks = 4.
Proof.
  intros K kp pass salt iv Hw Hp Hiv Hb Hlow. destruct (keystore_shape K kp pass salt iv Hw Hp Hiv) as (ks & H & Hk & H1 & H2 & H3 & Hi & Hm & Hc).
  exists ks. split; [exact H|]. split; [|auto]. unfold decrypt. rewrite Hk. cbn [kdf_salt]. rewrite Hc. replace (bytes_eqb _ _) with true by (symmetry; apply bytes_eqb_iff; reflexivity).
  f_equal. unfold aes_128_ctr. rewrite Hm, Hi.
  assert (Hlt : of_be (skipN 8 iv) < 2 ^ 64).
  { unfold of_be. assert (X : of_le (rev (skipN 8 iv)) < 256 ^ lenN (rev (skipN 8 iv))).
    - apply of_le_bound. apply Forall_rev. unfold skipN. apply Forall_forall. intros x Hx. rewrite Forall_forall in Hb. apply Hb. rewrite <- (firstn_skipn (N.to_nat 8) iv). apply in_or_app. right. exact Hx.
    - replace (lenN (rev (skipN 8 iv))) with 8 in X by (unfold lenN, skipN in *; rewrite rev_length, skipn_length; lia). exact X. }
  rewrite <- (block_eq iv 0), <- (block_eq iv 1) by (assumption || lia). apply xorB_twice. rewrite lenN_app. destruct Hw as (_ & _ & Ha & _). rewrite !Ha, Hp. reflexivity.
Qed.
(** otherwise the second block differs: the counter of the code wraps at 64 bits, that of AES-128-CTR carries into the high half *)
Theorem C72_keystore_counter_refuted : forall (K : KeyOracles) (kp : KeyPair) (pass : list N) (salt iv : bytes), key_oracles_wf K -> lenN (kp_private kp) = 32 ->
  lenN iv = 16 -> Forall (fun b => b < 256) iv -> of_be (skipN 8 iv) = 2 ^ 64 - 1 ->
  let key := firstN 16 (k_scrypt K (password_bytes K pass) salt) in
  ctr64_block iv 1 <> counter_block iv 1
  /\ (k_aes K key (ctr64_block iv 1) <> k_aes K key (counter_block iv 1) ->
      exists ks secret, keystore_new K kp pass salt iv = Ok ks /\ decrypt K ks pass = Some secret /\ secret <> kp_private kp).
Proof.
  intros K kp pass salt iv Hw Hp Hiv Hb Hlow key.
  assert (H1 : ctr64_block iv 1 <> counter_block iv 1).
  { intros X. unfold ctr64_block, counter_block in X. apply (f_equal of_be) in X. rewrite Hlow in X. change ((2 ^ 64 - 1 + 1) mod 2 ^ 64) with 0 in X.
    assert (Hl1 : lenN (firstN 8 iv ++ to_be 8 0) = 16) by (rewrite lenN_app, lenN_to_be; unfold lenN, firstN in *; rewrite firstn_length; lia).
    assert (Hf : Forall (fun b => b < 256) (firstN 8 iv)).
    { unfold firstN. apply Forall_forall. intros x Hx. rewrite Forall_forall in Hb. apply Hb. rewrite <- (firstn_skipn (N.to_nat 8) iv). apply in_or_app. left. exact Hx. }
    rewrite iv_split in X; [|exact Hl1|apply Forall_app; split; [exact Hf|unfold to_be; apply Forall_rev, to_le_bytes]].
    assert (Hf8 : length (firstN 8 iv) = 8%nat) by (unfold lenN, firstN in *; rewrite firstn_length; lia).
    assert (Ht : forall u v : bytes, length u = 8%nat -> firstN 8 (u ++ v) = u /\ skipN 8 (u ++ v) = v).
    { intros u v Hu. unfold firstN, skipN. change (N.to_nat 8) with 8%nat. rewrite <- Hu. rewrite firstn_app, skipn_app, Nat.sub_diag, firstn_all, skipn_all, firstn_O, app_nil_r. auto. }
    destruct (Ht (firstN 8 iv) (to_be 8 0) Hf8) as [Ht1 Ht2]. rewrite Ht1, Ht2 in X.
    change (of_be (to_be 8 0)) with 0 in X. rewrite (iv_split iv Hiv Hb), Hlow in X.
    assert (Hhi : of_be (firstN 8 iv) < 2 ^ 64).
    { unfold of_be. assert (Y : of_le (rev (firstN 8 iv)) < 256 ^ lenN (rev (firstN 8 iv))) by (apply of_le_bound, Forall_rev; exact Hf).
      replace (lenN (rev (firstN 8 iv))) with 8 in Y by (unfold lenN; rewrite rev_length, Hf8; reflexivity). exact Y. }
    rewrite of_be_to_be in X by (apply N.mod_lt; discriminate). set (hi := of_be (firstN 8 iv)) in *. clearbody hi.
    replace (hi * 2 ^ 64 + (2 ^ 64 - 1) + 1) with ((hi + 1) * 2 ^ 64) in X by lia. change (2 ^ 128) with (2 ^ 64 * 2 ^ 64) in X. rewrite N.mul_mod_distr_r in X by discriminate.
    rewrite N.add_0_r in X. apply N.mul_cancel_r in X; [|discriminate]. destruct (N.eq_dec (hi + 1) (2 ^ 64)) as [He|He]; [rewrite He, N.mod_same in X by discriminate; subst hi; discriminate|rewrite N.mod_small in X by lia; lia]. }
  split; [exact H1|]. intros Hne. destruct (keystore_shape K kp pass salt iv Hw Hp Hiv) as (ks & H & Hk & _ & _ & _ & Hi & Hm & Hc). fold key in Hm.
  exists ks. eexists. split; [exact H|]. unfold decrypt. rewrite Hk. cbn [kdf_salt]. rewrite Hc. replace (bytes_eqb _ _) with true by (symmetry; apply bytes_eqb_iff; reflexivity).
  split; [reflexivity|]. fold key. unfold aes_128_ctr. rewrite Hm, Hi. set (s := kp_private kp) in *. destruct Hw as (_ & _ & Ha & _).
  set (a := k_aes K key (ctr64_block iv 0) ++ k_aes K key (ctr64_block iv 1)). set (b := k_aes K key (counter_block iv 0) ++ k_aes K key (counter_block iv 1)). intros X.
  assert (La : lenN a = lenN s) by (unfold a; rewrite lenN_app, !Ha; symmetry; exact Hp). assert (Lb : lenN b = lenN s) by (unfold b; rewrite lenN_app, !Ha; symmetry; exact Hp).
  assert (Hab : a = b).
  { clearbody a b s. clear - X La Lb. unfold xorB in X. revert a b X La Lb. induction s as [|x s IH]; intros [|y a] [|z b] X La Lb; rewrite ?lenN_cons in *; try (change (lenN (@nil N)) with 0 in *; lia); [reflexivity|].
    cbn [combine map fst snd] in X. injection X as X1 X2. f_equal; [|apply IH; [exact X2|lia|lia]].
    apply N.lxor_eq. apply (f_equal (N.lxor x)) in X1. rewrite N.lxor_nilpotent, N.lxor_assoc, <- N.lxor_assoc, N.lxor_nilpotent, N.lxor_0_l in X1. exact X1. }
  apply (f_equal (skipn 16)) in Hab. unfold a, b in Hab. assert (Hs : forall u v : bytes, lenN u = 16 -> skipn 16 (u ++ v) = v).
  { intros u v Hu. assert (Hu' : length u = 16%nat) by (unfold lenN in Hu; lia). rewrite <- Hu'. rewrite skipn_app, Nat.sub_diag, skipn_all. reflexivity. }
  rewrite !Hs in Hab by apply Ha. contradiction.
Qed.
(** external functions for the examples *)
Definition toy_keys : KeyOracles := {|
  k_hash := fun b => repeat (sumN b mod 256) 32; k_hkdf := fun _ _ _ n => repeatN 1 n; k_public := fun b => b ++ [1];
  k_scrypt := fun p s => map (fun i => (sumN p + sumN s + i) mod 256) (rangeN 32); k_aes := fun k b => map (fun i => (sumN k + sumN b + i) mod 256) (rangeN 16);
  k_nfkd := fun l => l; k_utf8 := fun l => l |}.
Definition toy_iv (low : N) : bytes := to_be 8 7 ++ to_be 8 low.
Example C72_toy : key_oracles_wf toy_keys /\ (forall ikm, attempt toy_keys ikm 0 <> 0)
  /\ (let kp := mkKeyPair (to_be 32 12345) [1; 2] [12381; 3600; 0; 0; 0] in
      lenN (kp_private kp) = 32 /\ lenN (toy_iv 5) = 16 /\ of_be (skipN 8 (toy_iv 5)) <> 2 ^ 64 - 1 /\ of_be (skipN 8 (toy_iv (2 ^ 64 - 1))) = 2 ^ 64 - 1
      /\ (let key := firstN 16 (k_scrypt toy_keys (password_bytes toy_keys [9; 65; 66]) [3]) in
          k_aes toy_keys key (ctr64_block (toy_iv (2 ^ 64 - 1)) 1) <> k_aes toy_keys key (counter_block (toy_iv (2 ^ 64 - 1)) 1))
      /\ password_bytes toy_keys [9; 65; 66] = [65; 66]).
Proof.
  split; [|split].
  - unfold key_oracles_wf, toy_keys. cbn [k_hash k_hkdf k_aes k_scrypt]. repeat split; intros; try reflexivity. unfold repeatN, lenN. rewrite repeat_length. lia.
  - intros ikm. unfold attempt, toy_keys. cbn [k_hkdf k_hash]. vm_compute. discriminate.
  - cbv zeta. repeat split; try (vm_compute; reflexivity); vm_compute; discriminate.
Qed.

Print Assumptions C72_generate.
Print Assumptions C72_deterministic.
Print Assumptions C72_generate_succeeds.
Print Assumptions C72_keystore_opens.
Print Assumptions C72_keystore_counter_refuted.
