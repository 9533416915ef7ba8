(** * Proofs about shuffling: helpers.rs:249-360 *)
From Verif Require Import Base BaseLemmas Env Helpers SpecShuffle.
From Coq Require Import Permutation.

(** ** Small bit facts *)
Lemma land_255 j : N.land j 255 = j mod 256.
Proof. change 255 with (N.ones 8). rewrite N.land_ones. reflexivity. Qed.
Lemma land_7 j : N.land j 7 = j mod 8.
Proof. change 7 with (N.ones 3). rewrite N.land_ones. reflexivity. Qed.
Lemma land_1 j : N.land j 1 = j mod 2.
Proof. change 1 with (N.ones 1). rewrite N.land_ones. reflexivity. Qed.
Lemma shiftr_1 x : N.shiftr x 1 = x / 2.
Proof. rewrite N.shiftr_div_pow2. reflexivity. Qed.
Lemma shiftr_3 x : N.shiftr x 3 = x / 8.
Proof. rewrite N.shiftr_div_pow2. reflexivity. Qed.
Lemma testbit_shiftr_mod2 x k : N.testbit x k = negb (N.shiftr x k mod 2 =? 0).
Proof.
  rewrite N.testbit_spec' || idtac.
  rewrite N.shiftr_div_pow2. pose proof (N.testbit_spec' x k) as Hs.
  destruct (N.testbit x k); cbn [N.b2n] in Hs; rewrite <- Hs; reflexivity.
Qed.

Section Shuffle.
Variable E : Env.
Hypothesis Hwf : hash_wf (hash E).

Lemma slice_hash n b : n <= 32 -> slice_to n (hash E b) = Ok (firstn (N.to_nat n) (hash E b)).
Proof.
  intros Hn. unfold slice_to, lenN. destruct (Hwf b) as [Hl _]. rewrite Hl.
  destruct (N.leb_spec n (N.of_nat 32)); [reflexivity|lia].
Qed.
Lemma idx_hash i b : i < 32 -> idx (hash E b) i = Ok (nth (N.to_nat i) (hash E b) 0).
Proof.
  intros Hi. destruct (Hwf b) as [Hl _]. apply idx_ok. rewrite nthN_nth_error.
  apply nth_error_nth'. lia.
Qed.

Lemma shuffle_pivot_ok seed r n : n <> 0 -> shuffle_pivot E seed r n = Ok (spec_pivot (hash E) seed (r mod 256) n).
Proof. intros Hn. unfold shuffle_pivot. rewrite slice_hash by lia. cbn [rbind]. rewrite umod_ok by exact Hn. reflexivity. Qed.
Lemma spec_pivot_lt seed r n : n <> 0 -> spec_pivot (hash E) seed r n < n.
Proof. intros; unfold spec_pivot; apply N.mod_lt; assumption. Qed.

(** bit value read by the code (keeps the [u32] truncation) *)
Definition bitv seed r pos : bool :=
  N.testbit (nth (N.to_nat (pos mod 256 / 8)) (shuffle_source E seed r pos) 0) (pos mod 8).
Lemma shuffle_bit_ok seed r pos : shuffle_bit E seed r pos = Ok (bitv seed r pos).
Proof.
  unfold shuffle_bit, shuffle_source, bitv. rewrite idx_hash by lia. cbn [rbind].
  rewrite testbit_shiftr_mod2. reflexivity.
Qed.
Lemma bitv_spec seed r pos : pos < 2 ^ 40 -> bitv seed r pos = spec_bit (hash E) seed (r mod 256) pos.
Proof.
  intros Hp. unfold bitv, spec_bit, shuffle_source. rewrite (N.mod_small (pos / 256)); [reflexivity|].
  apply N.div_lt_upper_bound; [lia|]. exact Hp.
Qed.

Definition flip p n i := (p + n - i) mod n.
Definition rnd seed n r i : N :=
  let f := flip (spec_pivot (hash E) seed (r mod 256) n) n i in
  if bitv seed r (N.max i f) then f else i.

Lemma shuffle_round_ok seed n r i :
  n <= 2 ^ 63 -> i < n -> shuffle_round E seed n i r = Ok (rnd seed n r i).
Proof.
  intros Hn Hi. unfold shuffle_round. rewrite shuffle_pivot_ok by lia. cbn [rbind].
  pose proof (spec_pivot_lt seed (r mod 256) n ltac:(lia)) as Hp.
  change (2 ^ 63) with 9223372036854775808 in Hn.
  unfold add, sub. rewrite uadd_ok by (rewrite U64_val; lia). cbn [rbind].
  rewrite usub_ok by lia. cbn [rbind]. rewrite umod_ok by lia. cbn [rbind].
  rewrite shuffle_bit_ok. reflexivity.
Qed.

Lemma flip_cases p n i : p < n -> i < n -> flip p n i = if i <=? p then p - i else p + n - i.
Proof.
  intros Hp Hi. unfold flip. destruct (N.leb_spec i p).
  - replace (p + n - i) with ((p - i) + 1 * n) by lia. rewrite N.mod_add by lia. apply N.mod_small; lia.
  - apply N.mod_small; lia.
Qed.
Lemma flip_lt p n i : n <> 0 -> flip p n i < n.
Proof. intros; apply N.mod_lt; assumption. Qed.
Lemma flip_invol p n i : p < n -> i < n -> flip p n (flip p n i) = i.
Proof.
  intros Hp Hi. pose proof (flip_lt p n i ltac:(lia)) as Hf.
  rewrite (flip_cases p n (flip p n i)) by assumption. rewrite (flip_cases p n i) in * by assumption.
  destruct (N.leb_spec i p).
  - destruct (N.leb_spec (p - i) p); lia.
  - destruct (N.leb_spec (p + n - i) p); lia.
Qed.

Lemma rnd_lt seed n r i : i < n -> rnd seed n r i < n.
Proof. intros Hi; unfold rnd. destruct (bitv _ _ _); [apply flip_lt; lia|exact Hi]. Qed.
Lemma rnd_invol seed n r i : i < n -> rnd seed n r (rnd seed n r i) = i.
Proof.
  intros Hi. unfold rnd. set (p := spec_pivot _ _ _ _).
  assert (Hp : p < n) by (apply spec_pivot_lt; lia).
  destruct (bitv seed r (N.max i (flip p n i))) eqn:Hb.
  - rewrite flip_invol by assumption. rewrite N.max_comm, Hb. reflexivity.
  - rewrite Hb. reflexivity.
Qed.

(** composition of rounds in the order of a list *)
Definition rnds seed n (rs : list N) i : N := fold_left (fun i r => rnd seed n r i) rs i.
Lemma rnds_lt seed n rs i : i < n -> rnds seed n rs i < n.
Proof. revert i; induction rs as [|r rs IH]; intros i Hi; cbn; [exact Hi|]. apply IH, rnd_lt, Hi. Qed.
Lemma rnds_inj seed n rs i j : i < n -> j < n -> rnds seed n rs i = rnds seed n rs j -> i = j.
Proof.
  revert i j; induction rs as [|r rs IH]; intros i j Hi Hj H; cbn in H; [exact H|].
  apply IH in H; [|apply rnd_lt; assumption..].
  rewrite <- (rnd_invol seed n r i Hi), <- (rnd_invol seed n r j Hj), H. reflexivity.
Qed.

Definition perm seed n i : N := rnds seed n (rangeN (SHUFFLE_ROUND_COUNT E)) i.

Lemma compute_shuffled_index_ok seed n i :
  n <= 2 ^ 63 -> i < n -> compute_shuffled_index E i n seed = Ok (perm seed n i).
Proof.
  intros Hn Hi. unfold compute_shuffled_index. destruct (N.leb_spec n i); [lia|].
  apply (rfold_pure _ (fun i r => rnd seed n r i) (fun i => i < n)); [exact Hi|].
  intros b x _ Hb. split; [apply shuffle_round_ok; assumption|apply rnd_lt; assumption].
Qed.
Lemma compute_shuffled_index_err seed n i :
  n <= i -> compute_shuffled_index E i n seed = Err EInvalidShufflingIndex.
Proof. intros Hi. unfold compute_shuffled_index. destruct (N.leb_spec n i); [reflexivity|lia]. Qed.

Lemma perm_spec seed n i :
  n <= 2 ^ 40 -> SHUFFLE_ROUND_COUNT E <= 256 -> i < n ->
  perm seed n i = spec_shuffle (hash E) seed n (SHUFFLE_ROUND_COUNT E) i.
Proof.
  intros Hn HR Hi. unfold perm, spec_shuffle, rnds. 
  assert (Hgen : forall k, (k <= 256)%nat ->
    fold_left (fun i r => rnd seed n r i) (seqN 0 k) i = spec_rounds (hash E) seed n k i
    /\ spec_rounds (hash E) seed n k i < n).
  { induction k as [|k IH]; intros Hk; [split; [reflexivity|exact Hi]|].
    destruct IH as [IH IHlt]; [lia|].
    replace (S k) with (k + 1)%nat at 1 by lia. rewrite seqN_app, fold_left_app, IH. cbn [seqN fold_left spec_rounds].
    assert (Heq : rnd seed n (0 + N.of_nat k) (spec_rounds (hash E) seed n k i)
            = spec_round (hash E) seed n (N.of_nat k) (spec_rounds (hash E) seed n k i)).
    { unfold rnd, spec_round. rewrite N.add_0_l. rewrite bitv_spec.
      - rewrite (N.mod_small (N.of_nat k)) by lia. reflexivity.
      - set (f := flip _ _ _). assert (f < n) by (apply flip_lt; lia). lia. }
    rewrite Heq. split; [reflexivity|]. rewrite <- Heq. apply rnd_lt. exact IHlt. }
  unfold rangeN. apply Hgen. lia.
Qed.

Lemma perm_lt seed n i : i < n -> perm seed n i < n.
Proof. unfold perm. apply rnds_lt. Qed.

Lemma inj_range_perm (f : N -> N) n :
  (forall i, i < n -> f i < n) -> (forall i j, i < n -> j < n -> f i = f j -> i = j) ->
  Permutation (map f (rangeN n)) (rangeN n).
Proof.
  intros Hf Hi. apply NoDup_Permutation_bis.
  - assert (Hall : forall l, (forall x, In x l -> x < n) -> NoDup l -> NoDup (map f l)).
    { induction l as [|x l IH]; intros Hx Hl; cbn [map]; constructor.
      - inversion Hl as [|? ? Hnin Hl']; subst. rewrite in_map_iff. intros [y [Hy Hin]].
        apply Hi in Hy; [|apply Hx; right; exact Hin|apply Hx; left; reflexivity]. subst; contradiction.
      - inversion Hl; subst. apply IH; [|assumption]. intros y Hy; apply Hx; right; exact Hy. }
    apply Hall; [|apply NoDup_rangeN]. intros x; apply In_rangeN.
  - rewrite map_length. lia.
  - intros x Hx. apply in_map_iff in Hx as [y [<- Hy]]. apply In_rangeN in Hy. apply In_rangeN. auto.
Qed.

Lemma perm_permutation seed n : Permutation (map (perm seed n) (rangeN n)) (rangeN n).
Proof.
  apply inj_range_perm.
  - intros; apply perm_lt; assumption.
  - intros i j. unfold perm. apply rnds_inj.
Qed.

(** ** The whole-list shuffle *)

Lemma swapN_ok l i j a b : nthN l i = Some a -> nthN l j = Some b -> swapN l i j = Ok (updN (updN l i b) j a).
Proof.
  intros Ha Hb. unfold swapN. apply idx_ok in Ha, Hb. rewrite Ha. cbn [rbind]. rewrite Hb. reflexivity.
Qed.

(** the byte cached for position [j] *)
Definition bytev seed r j : N := nth (N.to_nat (j mod 256 / 8)) (shuffle_source E seed r j) 0.
(** cache invariant before processing [j] *)
Definition CInv seed r j (src : bytes) (b : N) : Prop :=
  (j mod 256 <> 255 -> src = shuffle_source E seed r j) /\ (j mod 8 <> 7 -> b = bytev seed r j).

Lemma CInv_top seed r j : CInv seed r j (shuffle_source E seed r j) (bytev seed r j).
Proof. split; intros _; reflexivity. Qed.
Lemma source_block seed r j j' : j / 256 = j' / 256 -> shuffle_source E seed r j = shuffle_source E seed r j'.
Proof. intros H. unfold shuffle_source. rewrite H. reflexivity. Qed.
Lemma CInv_next seed r j : CInv seed r j (shuffle_source E seed r (j + 1)) (bytev seed r (j + 1)).
Proof.
  split; intros Hj.
  - apply source_block. lia.
  - unfold bytev. f_equal; [|apply source_block; lia]. f_equal. lia.
Qed.

Lemma pass_step_ok seed r i j l src b x y :
  CInv seed r j src b -> nthN l i = Some x -> nthN l j = Some y ->
  pass_step E seed r i j (l, src, b) =
  Ok (if bitv seed r j then updN (updN l i y) j x else l, shuffle_source E seed r j, bytev seed r j).
Proof.
  intros [Hs Hb] Hx Hy. unfold pass_step. rewrite land_255, land_7.
  assert (Hsrc : (if j mod 256 =? 255 then shuffle_source E seed r j else src) = shuffle_source E seed r j).
  { destruct (N.eqb_spec (j mod 256) 255); auto. }
  rewrite Hsrc.
  assert (Hbyte : (if j mod 8 =? 7 then idx (shuffle_source E seed r j) (N.shiftr (j mod 256) 3) else Ok b)
                  = Ok (bytev seed r j)).
  { destruct (N.eqb_spec (j mod 8) 7).
    - rewrite shiftr_3. unfold bytev. unfold shuffle_source at 1. rewrite idx_hash by lia. reflexivity.
    - rewrite Hb by assumption. reflexivity. }
  rewrite Hbyte. cbn [rbind].
  assert (Hbit : (N.land (N.shiftr (bytev seed r j) (j mod 8)) 1 =? 1) = bitv seed r j).
  { unfold bitv. fold (bytev seed r j). rewrite land_1, testbit_shiftr_mod2.
    pose proof (N.mod_lt (N.shiftr (bytev seed r j) (j mod 8)) 2 ltac:(lia)).
    destruct (N.eqb_spec (N.shiftr (bytev seed r j) (j mod 8) mod 2) 1),
             (N.eqb_spec (N.shiftr (bytev seed r j) (j mod 8) mod 2) 0); simpl; try reflexivity; lia. }
  rewrite Hbit. destruct (bitv seed r j); [|reflexivity].
  rewrite (swapN_ok l i j x y Hx Hy). reflexivity.
Qed.

(** one mirrored segment [lo..hi]: after [m] steps, the outer [m] pairs have been exchanged where the bit says so *)
Definition seg seed r lo hi m (l : list N) x : option N :=
  let y := lo + hi - x in
  if ((lo <=? x) && (x <? lo + m)) || ((hi <? x + m) && (x <=? hi)) then
    if bitv seed r (N.max x y) then nthN l y else nthN l x
  else nthN l x.

Lemma segment_ok seed r lo hi (body : Pass -> N -> res Pass) M l src b :
  (forall p k, k < M -> body p k = pass_step E seed r (lo + k) (hi - k) p) ->
  (0 < M -> lo + (M - 1) < hi - (M - 1) /\ M - 1 <= hi) -> hi < lenN l ->
  CInv seed r hi src b ->
  exists l' src' b', rfold body (rangeN M) (l, src, b) = Ok (l', src', b')
    /\ lenN l' = lenN l /\ forall x, nthN l' x = seg seed r lo hi M l x.
Proof.
  intros Hbody HM Hhi Hc.
  assert (Hgen : forall m, m <= M -> exists l' src' b', rfold body (rangeN m) (l, src, b) = Ok (l', src', b')
    /\ lenN l' = lenN l /\ (forall x, nthN l' x = seg seed r lo hi m l x)
    /\ (m <= hi -> CInv seed r (hi - m) src' b')).
  { induction m as [|m IH] using N.peano_ind; intros Hm.
    - exists l, src, b. rewrite rangeN_0. cbn [rfold]. split; [reflexivity|]. split; [reflexivity|]. split.
      + intros x. unfold seg. destruct (((lo <=? x) && (x <? lo + 0)) || ((hi <? x + 0) && (x <=? hi))) eqn:Hx; [lia|reflexivity].
      + intros _. replace (hi - 0) with hi by lia. exact Hc.
    - destruct IH as (l1 & src1 & b1 & H1 & Hlen & Hnth & Hcc); [lia|].
      specialize (HM ltac:(lia)). destruct HM as [HM1 HM2].
      rewrite <- N.add_1_r, rangeN_succ, rfold_app, H1. cbn [rbind rfold].
      rewrite Hbody by lia.
      destruct (nthN_lt l (lo + m)) as [x Hx]; [lia|]. destruct (nthN_lt l (hi - m)) as [y Hy]; [lia|].
      assert (Hx1 : nthN l1 (lo + m) = Some x).
      { rewrite Hnth. unfold seg. destruct (((lo <=? lo + m) && (lo + m <? lo + m)) || ((hi <? lo + m + m) && (lo + m <=? hi))) eqn:Hc0; [lia|exact Hx]. }
      assert (Hy1 : nthN l1 (hi - m) = Some y).
      { rewrite Hnth. unfold seg. destruct (((lo <=? hi - m) && (hi - m <? lo + m)) || ((hi <? hi - m + m) && (hi - m <=? hi))) eqn:Hc0; [lia|exact Hy]. }
      rewrite (pass_step_ok seed r (lo + m) (hi - m) l1 src1 b1 x y (Hcc ltac:(lia)) Hx1 Hy1).
      cbn [rbind]. eexists _, _, _. split; [reflexivity|]. split; [|split].
      + destruct (bitv _ _ _); rewrite ?lenN_updN; exact Hlen.
      + intros z. unfold seg.
        destruct (N.eq_dec z (lo + m)) as [->|Hz1]; [|destruct (N.eq_dec z (hi - m)) as [->|Hz2]].
        * replace (((lo <=? lo + m) && (lo + m <? lo + (m + 1))) || _) with true by lia.
          replace (lo + hi - (lo + m)) with (hi - m) by lia. replace (N.max (lo + m) (hi - m)) with (hi - m) by lia.
          destruct (bitv seed r (hi - m)).
          -- rewrite nthN_updN_ne by lia. rewrite nthN_updN_eq by lia. congruence.
          -- congruence.
        * replace (((lo <=? hi - m) && (hi - m <? lo + (m + 1))) || _) with true by lia.
          replace (lo + hi - (hi - m)) with (lo + m) by lia. replace (N.max (hi - m) (lo + m)) with (hi - m) by lia.
          destruct (bitv seed r (hi - m)).
          -- rewrite nthN_updN_eq by (rewrite lenN_updN; lia). congruence.
          -- congruence.
        * assert (Hz : nthN (if bitv seed r (hi - m) then updN (updN l1 (lo + m) y) (hi - m) x else l1) z = nthN l1 z).
          { destruct (bitv seed r (hi - m)); [|reflexivity]. rewrite !nthN_updN_ne by lia. reflexivity. }
          rewrite Hz, Hnth. unfold seg.
          replace (((lo <=? z) && (z <? lo + (m + 1))) || ((hi <? z + (m + 1)) && (z <=? hi)))
            with (((lo <=? z) && (z <? lo + m)) || ((hi <? z + m) && (z <=? hi))) by lia.
          reflexivity.
      + intros _. pose proof (CInv_next seed r (hi - (m + 1))) as Hn.
        replace (hi - (m + 1) + 1) with (hi - m) in Hn by lia. exact Hn. }
  destruct (Hgen M ltac:(lia)) as (l' & src' & b' & H1 & H2 & H3 & _). eauto 6.
Qed.

Lemma bytev_idx seed r j : idx (shuffle_source E seed r j) (N.shiftr (N.land j 255) 3) = Ok (bytev seed r j).
Proof. rewrite land_255, shiftr_3. unfold shuffle_source at 1. rewrite idx_hash by lia. reflexivity. Qed.

Lemma shuffle_pass_ok seed r l :
  0 < lenN l -> lenN l < 2 ^ 63 ->
  exists l', shuffle_pass E seed (lenN l) l r = Ok l' /\ lenN l' = lenN l
    /\ forall x, x < lenN l -> nthN l' x = nthN l (rnd seed (lenN l) r x).
Proof.
  intros H0 Hmax. set (n := lenN l) in *. change (2 ^ 63) with 9223372036854775808 in Hmax.
  unfold shuffle_pass. rewrite shuffle_pivot_ok by lia. cbn [rbind].
  set (p := spec_pivot (hash E) seed (r mod 256) n).
  assert (Hp : p < n) by (apply spec_pivot_lt; lia).
  rewrite bytev_idx. cbn [rbind]. unfold add, sub.
  rewrite (uadd_ok _ p 1) by (rewrite U64_val; lia). cbn [rbind]. rewrite shiftr_1.
  destruct (segment_ok seed r 0 p
             (fun q i => let! j := usub (chk E) p i in pass_step E seed r i j q)
             ((p + 1) / 2) l (shuffle_source E seed r p) (bytev seed r p)) as (l1 & s1 & b1 & H1 & Hl1 & Hn1).
  { intros q k Hk. rewrite usub_ok by lia. cbn [rbind]. reflexivity. }
  { lia. } { lia. } { apply CInv_top. }
  rewrite H1. cbn [rbind]. rewrite usub_ok by lia. cbn [rbind]. rewrite bytev_idx. cbn [rbind].
  rewrite (uadd_ok _ p n) by (rewrite U64_val; lia). cbn [rbind].
  rewrite (uadd_ok _ (p + n) 1) by (rewrite U64_val; lia). cbn [rbind]. rewrite shiftr_1.
  destruct (segment_ok seed r (p + 1) (n - 1)
             (fun q k => let! j := usub (chk E) (n - 1) k in let! i := uadd (chk E) (p + 1) k in pass_step E seed r i j q)
             ((p + n + 1) / 2 - (p + 1)) l1 (shuffle_source E seed r (n - 1)) (bytev seed r (n - 1)))
    as (l2 & s2 & b2 & H2 & Hl2 & Hn2).
  { intros q k Hk. rewrite usub_ok by lia. cbn [rbind]. rewrite uadd_ok by (rewrite U64_val; lia). reflexivity. }
  { lia. } { lia. } { apply CInv_top. }
  rewrite H2. cbn [rbind]. exists l2. split; [reflexivity|]. split; [lia|].
  intros x Hx. rewrite Hn2. unfold seg.
  unfold rnd. fold p. rewrite flip_cases by assumption.
  destruct (N.leb_spec x p).
  - replace (((p + 1 <=? x) && (x <? p + 1 + ((p + n + 1) / 2 - (p + 1)))) || _) with false by lia.
    rewrite Hn1. unfold seg. replace (0 + p - x) with (p - x) by lia.
    destruct (((0 <=? x) && (x <? 0 + (p + 1) / 2)) || ((p <? x + (p + 1) / 2) && (x <=? p))) eqn:Hc.
    + destruct (bitv seed r (N.max x (p - x))); reflexivity.
    + assert (p - x = x) as -> by lia. destruct (bitv _ _ _); reflexivity.
  - replace (p + 1 + (n - 1) - x) with (p + n - x) by lia.
    assert (Hn1' : forall z, p < z -> nthN l1 z = nthN l z).
    { intros z Hz. rewrite Hn1. unfold seg.
      replace (((0 <=? z) && (z <? 0 + (p + 1) / 2)) || ((p <? z + (p + 1) / 2) && (z <=? p))) with false by lia.
      reflexivity. }
    rewrite !Hn1' by lia.
    destruct (((p + 1 <=? x) && (x <? p + 1 + ((p + n + 1) / 2 - (p + 1)))) ||
      ((n - 1 <? x + ((p + n + 1) / 2 - (p + 1))) && (x <=? n - 1))) eqn:Hc.
    + destruct (bitv _ _ _); reflexivity.
    + assert (p + n - x = x) as -> by lia. destruct (bitv _ _ _); reflexivity.
Qed.

Lemma passes_ok seed rs l :
  0 < lenN l -> lenN l < 2 ^ 63 ->
  exists l', rfold (shuffle_pass E seed (lenN l)) rs l = Ok l' /\ lenN l' = lenN l
    /\ forall x, x < lenN l -> nthN l' x = nthN l (rnds seed (lenN l) (rev rs) x).
Proof.
  intros H0 Hmax. set (n := lenN l) in *.
  assert (Hgen : forall rs l, lenN l = n -> exists l', rfold (shuffle_pass E seed n) rs l = Ok l' /\ lenN l' = n
    /\ forall x, x < n -> nthN l' x = nthN l (rnds seed n (rev rs) x)).
  { clear rs. induction rs as [|r rs IH]; intros l0 Hl0; cbn [rfold rev].
    - exists l0. repeat split; auto.
    - destruct (shuffle_pass_ok seed r l0) as (l1 & H1 & Hl1 & Hn1); [lia|lia|]. rewrite Hl0 in *.
      rewrite H1. cbn [rbind]. destruct (IH l1 Hl1) as (l2 & H2 & Hl2 & Hn2). exists l2. repeat split; auto.
      intros x Hx. rewrite Hn2 by exact Hx. rewrite Hn1 by (apply rnds_lt; exact Hx).
      unfold rnds. rewrite fold_left_app. reflexivity. }
  apply Hgen; reflexivity.
Qed.

Lemma compute_shuffled_indices_ok seed l :
  0 < SHUFFLE_ROUND_COUNT E -> lenN l < 2 ^ 63 ->
  exists l', compute_shuffled_indices E l seed = Ok l' /\ lenN l' = lenN l
    /\ forall x, x < lenN l -> nthN l' x = nthN l (perm seed (lenN l) x).
Proof.
  intros HR Hmax. unfold compute_shuffled_indices. destruct l as [|a l].
  - exists []. repeat split.
  - unfold sub. rewrite usub_ok by lia. cbn [rbind]. destruct (N.eqb_spec (SHUFFLE_ROUND_COUNT E) 0); [lia|].
    destruct (passes_ok seed (rev (rangeN (SHUFFLE_ROUND_COUNT E))) (a :: l)) as (l' & H1 & H2 & H3);
      [rewrite lenN_cons; lia|exact Hmax|].
    exists l'. rewrite rev_involutive in H3. auto.
Qed.

Lemma compute_shuffled_indices_map seed l :
  0 < SHUFFLE_ROUND_COUNT E -> lenN l < 2 ^ 63 ->
  exists l', compute_shuffled_indices E l seed = Ok l' /\ lenN l' = lenN l /\
    forall x si, compute_shuffled_index E x (lenN l) seed = Ok si -> nthN l' x = nthN l si.
Proof.
  intros HR Hmax. destruct (compute_shuffled_indices_ok seed l HR Hmax) as (l' & H1 & H2 & H3).
  exists l'. repeat split; auto. intros x si Hs.
  destruct (N.lt_ge_cases x (lenN l)) as [Hx|Hx].
  - rewrite compute_shuffled_index_ok in Hs by lia. injection Hs as <-. auto.
  - rewrite compute_shuffled_index_err in Hs by exact Hx. discriminate.
Qed.

End Shuffle.
