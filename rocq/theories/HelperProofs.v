(** * Proofs about the helpers *)
From Verif Require Import Base BaseLemmas Types Env Helpers SpecCommon SpecShuffle ShuffleProofs.
From Coq Require Import Permutation Sorted.

Lemma flat_map_ext_in {A B} (f g : A -> list B) l : (forall x, In x l -> f x = g x) -> flat_map f l = flat_map g l.
Proof.
  induction l as [|x l IH]; intros H; cbn [flat_map]; [reflexivity|].
  rewrite (H x) by (left; reflexivity). f_equal. apply IH. intros; apply H; right; assumption.
Qed.

(** ** indices_where *)
Lemma indices_where_cons {A} (p : A -> bool) x l :
  indices_where p (x :: l) = (if p x then [0] else []) ++ map (fun i => i + 1) (indices_where p l).
Proof.
  unfold indices_where. rewrite lenN_cons. unfold rangeN.
  replace (N.to_nat (lenN l + 1)) with (S (N.to_nat (lenN l))) by lia. cbn [seqN filter].
  rewrite nthN_0.
  assert (Hs : forall s n, seqN (s + 1) n = map (fun i => i + 1) (seqN s n)).
  { intros s n; revert s; induction n as [|n IH]; intros s; cbn [seqN map]; [reflexivity|]. f_equal. apply IH. }
  rewrite (Hs 0). 
  assert (Hf : forall k, filter (fun i => match nthN (x :: l) i with Some y => p y | None => false end) (map (fun i => i + 1) k)
     = map (fun i => i + 1) (filter (fun i => match nthN l i with Some y => p y | None => false end) k)).
  { induction k as [|i k IH]; cbn [map filter]; [reflexivity|]. rewrite nthN_succ.
    destruct (nthN l i) as [y|]; [|exact IH]. destruct (p y); cbn [map]; rewrite IH; reflexivity. }
  rewrite Hf. destruct (p x); reflexivity.
Qed.
Lemma In_indices_where {A} (p : A -> bool) l i :
  In i (indices_where p l) <-> exists x, nthN l i = Some x /\ p x = true.
Proof.
  unfold indices_where. rewrite filter_In, In_rangeN. split.
  - intros [Hi Hp]. destruct (nthN l i) as [x|]; [eauto|discriminate].
  - intros [x [Hx Hp]]. rewrite Hx. split; [eapply nthN_some; eauto|exact Hp].
Qed.
Lemma NoDup_indices_where {A} (p : A -> bool) l : NoDup (indices_where p l).
Proof. apply NoDup_filter, NoDup_rangeN. Qed.
Lemma seqN_sorted s n : StronglySorted N.lt (seqN s n).
Proof.
  revert s; induction n as [|n IH]; intros s; cbn [seqN]; constructor; auto.
  apply Forall_forall. intros x Hx. apply In_seqN in Hx. lia.
Qed.
Lemma filter_sorted {A} (R : A -> A -> Prop) p l : StronglySorted R l -> StronglySorted R (filter p l).
Proof.
  induction 1 as [|x l Hl IH Hx]; cbn [filter]; [constructor|]. destruct (p x); [|exact IH].
  constructor; [exact IH|]. rewrite Forall_forall in *. intros y Hy. apply filter_In in Hy as [Hy _]. auto.
Qed.
Lemma indices_where_sorted {A} (p : A -> bool) l : StronglySorted N.lt (indices_where p l).
Proof. apply filter_sorted, seqN_sorted. Qed.
Lemma indices_where_len {A} (p : A -> bool) l : lenN (indices_where p l) = lenN (filter p l).
Proof.
  induction l as [|x l IH]; [reflexivity|]. rewrite indices_where_cons, lenN_app, lenN_map, IH. cbn [filter].
  destruct (p x); rewrite ?lenN_cons, ?lenN_nil; lia.
Qed.
Lemma indices_where_le {A} (p : A -> bool) l : lenN (indices_where p l) <= lenN l.
Proof.
  rewrite indices_where_len. induction l as [|x l IH]; [reflexivity|]. cbn [filter].
  destruct (p x); rewrite ?lenN_cons; lia.
Qed.

Lemma active_from_spec vs i e : active_from vs i e = map (fun j => i + j) (indices_where (active_at e) vs).
Proof.
  revert i; induction vs as [|v vs IH]; intros i; [reflexivity|].
  cbn [active_from]. rewrite indices_where_cons, map_app, map_map. rewrite IH.
  unfold is_active_validator, active_at.
  assert (Hm : map (fun j => i + 1 + j) (indices_where (fun v0 : Validator => (v_activation_epoch v0 <=? e) && (e <? v_exit_epoch v0)) vs)
         = map (fun x => i + (x + 1)) (indices_where (fun v0 : Validator => (v_activation_epoch v0 <=? e) && (e <? v_exit_epoch v0)) vs)).
  { apply map_ext. intros; lia. }
  rewrite Hm. destruct (_ && _); cbn [map app]; [|reflexivity]. f_equal. lia.
Qed.
Lemma get_active_ok s e : get_active_validator_indices s e = active_set s e.
Proof.
  unfold get_active_validator_indices. rewrite active_from_spec. unfold active_set.
  rewrite <- map_id. apply map_ext. intros; lia.
Qed.
Lemma active_set_le s e : lenN (active_set s e) <= lenN (validators s).
Proof. apply indices_where_le. Qed.
Lemma In_active_set s e i : In i (active_set s e) <-> exists v, nthN (validators s) i = Some v /\ active_at e v = true.
Proof. apply In_indices_where. Qed.

(** ** epochs *)
Section H.
Variable E : Env.
Hypothesis Hctx : ctx_sane E.

Ltac ctx := unfold ctx_sane in Hctx; 
  change (2 ^ 16) with 65536 in *; change (2 ^ 12) with 4096 in *; change (2 ^ 8) with 256 in *; change (2 ^ 32) with 4294967296 in *;
  change (2 ^ 40) with 1099511627776 in *; change (2 ^ 44) with 17592186044416 in *; change (2 ^ 56) with 72057594037927936 in *.

Lemma epoch_at_slot_ok sl : compute_epoch_at_slot E sl = Ok (sl / SLOTS_PER_EPOCH E).
Proof. unfold compute_epoch_at_slot. apply udiv_ok. ctx; lia. Qed.
Lemma current_epoch_ok s : get_current_epoch E s = Ok (epoch_of E s).
Proof. apply epoch_at_slot_ok. Qed.
Lemma previous_epoch_ok s : get_previous_epoch E s = Ok (prev_epoch_of E s).
Proof.
  unfold get_previous_epoch. rewrite current_epoch_ok. cbn [rbind]. unfold prev_epoch_of, GENESIS_EPOCH.
  destruct (N.eqb_spec (epoch_of E s) 0) as [->|Hne]; [reflexivity|]. unfold sub. apply usub_ok. lia.
Qed.
Lemma epoch_small s : slot_small s -> epoch_of E s < 2 ^ 56.
Proof.
  unfold slot_small, epoch_of. intros H. eapply N.le_lt_trans; [|exact H]. ctx. apply N.div_le_upper_bound; [lia|]. nia.
Qed.

Lemma seed_ok s e d :
  state_shape E s -> e < 2 ^ 60 ->
  exists mix, nthN (randao_mixes s) ((e + EPOCHS_PER_HISTORICAL_VECTOR E - MIN_SEED_LOOKAHEAD E - 1) mod EPOCHS_PER_HISTORICAL_VECTOR E) = Some mix
    /\ get_seed E s e d = Ok (hash E (domain_bytes d ++ to_le 8 e ++ mix)).
Proof.
  intros Hs He. change (2 ^ 60) with 1152921504606846976 in He. unfold get_seed. ctx. unfold add, sub.
  rewrite usub_ok by lia. cbn [rbind]. rewrite uadd_ok by (rewrite U64_val; lia). cbn [rbind].
  rewrite usub_ok by lia. cbn [rbind]. unfold get_randao_mix. rewrite umod_ok by lia. cbn [rbind].
  replace (e + (EPOCHS_PER_HISTORICAL_VECTOR E - MIN_SEED_LOOKAHEAD E) - 1)
    with (e + EPOCHS_PER_HISTORICAL_VECTOR E - MIN_SEED_LOOKAHEAD E - 1) by lia.
  destruct (nthN_lt (randao_mixes s) ((e + EPOCHS_PER_HISTORICAL_VECTOR E - MIN_SEED_LOOKAHEAD E - 1) mod EPOCHS_PER_HISTORICAL_VECTOR E)) as [mix Hm].
  { destruct Hs as (_ & _ & Hr & _). rewrite Hr. apply N.mod_lt. lia. }
  exists mix. split; [exact Hm|]. apply idx_ok in Hm. rewrite Hm. reflexivity.
Qed.

Definition committees_per_slot s e : N :=
  N.max 1 (N.min (MAX_COMMITTEES_PER_SLOT E) (lenN (active_set s e) / SLOTS_PER_EPOCH E / TARGET_COMMITTEE_SIZE E)).
Lemma committee_count_ok s e : get_committee_count_per_slot E s e = Ok (committees_per_slot s e).
Proof.
  unfold get_committee_count_per_slot. rewrite get_active_ok. ctx.
  rewrite udiv_ok by lia. cbn [rbind]. rewrite udiv_ok by lia. reflexivity.
Qed.

(** ** committees *)
Hypothesis Hwf : hash_wf (hash E).

Definition committee_of (A : list N) seed i count : list N :=
  let n := lenN A in
  flat_map (fun j => match nthN A (perm E seed n j) with Some v => [v] | None => [] end)
           (seqN (n * i / count) (N.to_nat (n * (i + 1) / count - n * i / count))).

Lemma flat_map_rmap (f : N -> res N) (g : N -> option N) l :
  (forall x, In x l -> exists y, g x = Some y /\ f x = Ok y) ->
  rmap f l = Ok (flat_map (fun x => match g x with Some v => [v] | None => [] end) l).
Proof.
  induction l as [|x l IH]; intros H; cbn [rmap flat_map]; [reflexivity|].
  destruct (H x (or_introl eq_refl)) as (y & Hg & Hf). rewrite Hf, Hg. cbn [rbind].
  rewrite IH; [reflexivity|]. intros; apply H; right; assumption.
Qed.

Lemma firstn_skipn_nth (l : list N) a m :
  (a + m <= length l)%nat -> firstn m (skipn a l) = flat_map (fun x => match nthN l x with Some v => [v] | None => [] end) (seqN (N.of_nat a) m).
Proof.
  revert a; induction m as [|m IH]; intros a Ha; cbn [firstn seqN flat_map]; [reflexivity|].
  rewrite nthN_nth_error, Nat2N.id.
  destruct (nth_error l a) as [y|] eqn:Hy.
  - assert (Hsk : skipn a l = y :: skipn (S a) l).
    { clear -Hy. revert a Hy; induction l as [|z l IH]; intros [|a] Hy; try discriminate.
      - injection Hy as ->. reflexivity.
      - cbn [skipn]. rewrite (IH a Hy). reflexivity. }
    rewrite Hsk. cbn [firstn app]. f_equal. rewrite IH by lia. f_equal. f_equal. lia.
  - apply nth_error_None in Hy. lia.
Qed.

Lemma compute_committee_ok A seed i count :
  i < count -> lenN A * count < U64 -> lenN A < 2 ^ 63 -> count < U64 ->
  compute_committee E A seed i count = Ok (committee_of A seed i count).
Proof.
  intros Hi Hov Hlen Hcnt. set (n := lenN A) in *.
  assert (Hle : n * i / count <= n * (i + 1) / count) by (apply N.div_le_mono; nia).
  assert (Hub : n * (i + 1) / count <= n).
  { apply N.div_le_upper_bound; [lia|]. rewrite N.mul_comm. apply N.mul_le_mono_r. lia. }
  assert (HR : 0 < SHUFFLE_ROUND_COUNT E) by (ctx; lia).
  unfold compute_committee. fold n.
  destruct (compute_shuffled_indices_ok E Hwf seed A HR Hlen) as (l' & H1 & H2 & H3).
  fold n in H2, H3.
  destruct (feat_shuffling E).
  - rewrite H1. cbn [rbind]. unfold add, mul.
    rewrite umul_ok by nia. cbn [rbind]. rewrite udiv_ok by lia. cbn [rbind].
    rewrite uadd_ok by (rewrite U64_val in *; lia). cbn [rbind]. rewrite umul_ok by nia. cbn [rbind].
    rewrite udiv_ok by lia. cbn [rbind]. rewrite H2.
    destruct (N.leb_spec (n * i / count) (n * (i + 1) / count)); [|lia].
    destruct (N.leb_spec (n * (i + 1) / count) n); [|lia]. cbn [andb]. f_equal.
    unfold firstN, skipN, committee_of. fold n.
    rewrite firstn_skipn_nth by (unfold lenN in H2; lia). rewrite N2Nat.id.
    set (st := n * i / count) in *. set (m := N.to_nat _).
    assert (Hin : forall x, In x (seqN st m) -> x < n) by (intros x Hx; apply In_seqN in Hx; lia).
    clearbody m. revert Hin. generalize (seqN st m). induction l as [|x l IH]; intros Hin; cbn [flat_map]; [reflexivity|].
    rewrite H3 by (apply Hin; left; reflexivity). f_equal. apply IH. intros y Hy; apply Hin; right; exact Hy.
  - unfold add, mul, sub.
    rewrite umul_ok by nia. cbn [rbind]. rewrite udiv_ok by lia. cbn [rbind].
    rewrite uadd_ok by (rewrite U64_val in *; lia). cbn [rbind]. rewrite umul_ok by nia. cbn [rbind].
    rewrite udiv_ok by lia. cbn [rbind]. rewrite usub_ok by lia. cbn [rbind].
    unfold committee_of. fold n. apply flat_map_rmap. intros x Hx. apply In_seqN in Hx.
    assert (Hxn : x < n) by lia.
    rewrite compute_shuffled_index_ok by (assumption || lia). cbn [rbind].
    destruct (nthN_lt A (perm E seed n x)) as [y Hy]; [apply perm_lt; assumption|].
    exists y. split; [exact Hy|]. apply idx_ok; exact Hy.
Qed.

Lemma concat_committees A seed count :
  0 < count -> flat_map (fun i => committee_of A seed i count) (rangeN count)
             = flat_map (fun j => match nthN A (perm E seed (lenN A) j) with Some v => [v] | None => [] end) (rangeN (lenN A)).
Proof.
  intros Hc. set (n := lenN A).
  assert (Hgen : forall k, k <= count -> flat_map (fun i => committee_of A seed i count) (rangeN k)
     = flat_map (fun j => match nthN A (perm E seed n j) with Some v => [v] | None => [] end) (rangeN (n * k / count))).
  { induction k as [|k IH] using N.peano_ind; intros Hk.
    - rewrite N.mul_0_r, N.div_0_l by lia. reflexivity.
    - rewrite <- N.add_1_r, rangeN_succ, flat_map_app, IH by lia. cbn [flat_map]. rewrite app_nil_r.
      unfold committee_of. fold n.
      assert (Hle : n * k / count <= n * (k + 1) / count) by (apply N.div_le_mono; nia).
      unfold rangeN at 2. replace (N.to_nat (n * (k + 1) / count))
        with (N.to_nat (n * k / count) + N.to_nat (n * (k + 1) / count - n * k / count))%nat by lia.
      rewrite seqN_app, flat_map_app. unfold rangeN. rewrite N2Nat.id, N.add_0_l. reflexivity. }
  rewrite Hgen by lia. rewrite N.div_mul by lia. reflexivity.
Qed.

Lemma nth_range_id {A} (l : list A) :
  flat_map (fun j => match nthN l j with Some v => [v] | None => [] end) (rangeN (lenN l)) = l.
Proof.
  induction l as [|x l IH] using rev_ind; [reflexivity|].
  rewrite lenN_app, lenN_cons, lenN_nil. replace (lenN l + (0 + 1)) with (lenN l + 1) by lia.
  rewrite rangeN_succ, flat_map_app. cbn [flat_map]. rewrite app_nil_r.
  rewrite nthN_app_r by lia. replace (lenN l - lenN l) with 0 by lia. rewrite nthN_0.
  f_equal. rewrite <- IH at 2. clear IH.
  assert (H : forall k, (forall j, In j k -> j < lenN l) ->
    flat_map (fun j => match nthN (l ++ [x]) j with Some v => [v] | None => [] end) k
    = flat_map (fun j => match nthN l j with Some v => [v] | None => [] end) k).
  { induction k as [|j k IH]; intros Hk; [reflexivity|]. cbn [flat_map]. rewrite nthN_app_l by (apply Hk; left; reflexivity).
    f_equal. apply IH. intros; apply Hk; right; assumption. }
  apply H. intros j; apply In_rangeN.
Qed.

Lemma committees_permutation A seed count :
  0 < count -> Permutation (flat_map (fun i => committee_of A seed i count) (rangeN count)) A.
Proof.
  intros Hc. rewrite concat_committees by exact Hc.
  rewrite <- (nth_range_id A) at 2.
  set (g := fun j => match nthN A j with Some v => [v] | None => [] end).
  change (Permutation (flat_map (fun j => g (perm E seed (lenN A) j)) (rangeN (lenN A))) (flat_map g (rangeN (lenN A)))).
  assert (Hfm : forall k, flat_map (fun j => g (perm E seed (lenN A) j)) k = flat_map g (map (perm E seed (lenN A)) k)).
  { induction k as [|j k IH]; [reflexivity|]. cbn [flat_map map]. rewrite IH. reflexivity. }
  rewrite Hfm. apply Permutation_flat_map. apply perm_permutation.
Qed.

(** committee of slot [sl] (in its epoch) and committee index [c] *)
Definition beacon_committee s sl c seed : list N :=
  let e := sl / SLOTS_PER_EPOCH E in
  committee_of (active_set s e) seed ((sl mod SLOTS_PER_EPOCH E) * committees_per_slot s e + c)
               (committees_per_slot s e * SLOTS_PER_EPOCH E).

Lemma cps_bounds s e : 1 <= committees_per_slot s e <= MAX_COMMITTEES_PER_SLOT E.
Proof. unfold committees_per_slot. ctx. lia. Qed.

Lemma get_beacon_committee_ok s sl c :
  state_shape E s -> sl < 2 ^ 60 -> c < committees_per_slot s (sl / SLOTS_PER_EPOCH E) ->
  exists mix,
    nthN (randao_mixes s) ((sl / SLOTS_PER_EPOCH E + EPOCHS_PER_HISTORICAL_VECTOR E - MIN_SEED_LOOKAHEAD E - 1) mod EPOCHS_PER_HISTORICAL_VECTOR E) = Some mix /\
    get_beacon_committee E s sl c =
      Ok (beacon_committee s sl c (hash E (domain_bytes DBeaconAttester ++ to_le 8 (sl / SLOTS_PER_EPOCH E) ++ mix))).
Proof.
  intros Hs Hsl Hc. set (e := sl / SLOTS_PER_EPOCH E) in *.
  assert (Hspe : 1 <= SLOTS_PER_EPOCH E <= 4096) by (ctx; lia).
  assert (He : e < 2 ^ 60).
  { eapply N.le_lt_trans; [|exact Hsl]. apply N.div_le_upper_bound; [lia|]. nia. }
  destruct (seed_ok s e DBeaconAttester Hs He) as (mix & Hm & Hseed). exists mix. split; [exact Hm|].
  unfold get_beacon_committee. rewrite epoch_at_slot_ok. cbn [rbind]. fold e. rewrite committee_count_ok. cbn [rbind].
  rewrite Hseed. cbn [rbind]. rewrite get_active_ok.
  pose proof (cps_bounds s e) as Hcps. assert (Hmax : MAX_COMMITTEES_PER_SLOT E <= 256) by (ctx; lia).
  set (cps := committees_per_slot s e) in *.
  rewrite umod_ok by lia. cbn [rbind].
  pose proof (N.mod_lt sl (SLOTS_PER_EPOCH E) ltac:(lia)) as Hr. set (r := sl mod SLOTS_PER_EPOCH E) in *.
  unfold mul, add. rewrite umul_ok by (rewrite U64_val; nia). cbn [rbind].
  rewrite uadd_ok by (rewrite U64_val; nia). cbn [rbind]. rewrite umul_ok by (rewrite U64_val; nia). cbn [rbind].
  pose proof (active_set_le s e) as Hal.
  assert (Hv : lenN (validators s) <= 1099511627776) by (destruct Hs as (_ & _ & _ & _ & _ & Hv); exact Hv).
  rewrite compute_committee_ok; [reflexivity|nia| |change (2 ^ 63) with 9223372036854775808; clear - Hal Hv; lia|rewrite U64_val; nia].
  rewrite U64_val. assert (Hb : cps * SLOTS_PER_EPOCH E <= 256 * 4096) by (apply N.mul_le_mono; lia).
  apply N.le_lt_trans with (1099511627776 * (256 * 4096)); [apply N.mul_le_mono; lia|lia].
Qed.

Lemma rangeN_mul_flat (g : N -> list N) a b :
  flat_map g (rangeN (a * b)) = flat_map (fun r => flat_map (fun c => g (r * b + c)) (rangeN b)) (rangeN a).
Proof.
  induction a as [|a IH] using N.peano_ind; [reflexivity|].
  rewrite <- N.add_1_r, rangeN_succ, flat_map_app, <- IH. cbn [flat_map]. rewrite app_nil_r.
  replace ((a + 1) * b) with (a * b + b) by lia.
  unfold rangeN at 1. replace (N.to_nat (a * b + b)) with (N.to_nat (a * b) + N.to_nat b)%nat by lia.
  rewrite seqN_app, flat_map_app. f_equal. rewrite N2Nat.id, N.add_0_l.
  assert (H : forall s n, flat_map g (seqN (a * b + s) n) = flat_map (fun c => g (a * b + c)) (seqN s n)).
  { intros s n; revert s; induction n as [|n IHn]; intros s; cbn [seqN flat_map]; [reflexivity|]. f_equal.
    replace (a * b + s + 1) with (a * b + (s + 1)) by lia. apply IHn. }
  unfold rangeN. rewrite <- H. f_equal. f_equal. lia.
Qed.

Lemma epoch_committees_partition s e :
  state_shape E s -> e < 2 ^ 40 ->
  exists com : N -> N -> list N,
    (forall sl c, sl / SLOTS_PER_EPOCH E = e -> c < committees_per_slot s e -> get_beacon_committee E s sl c = Ok (com sl c))
    /\ Permutation (flat_map (fun r => flat_map (fun c => com (e * SLOTS_PER_EPOCH E + r) c) (rangeN (committees_per_slot s e)))
                             (rangeN (SLOTS_PER_EPOCH E)))
                   (active_set s e).
Proof.
  intros Hs He. change (2 ^ 40) with 1099511627776 in He.
  assert (Hspe : 1 <= SLOTS_PER_EPOCH E <= 4096) by (ctx; lia).
  destruct (seed_ok s e DBeaconAttester Hs) as (mix & Hm & Hseed);
    [change (2 ^ 60) with 1152921504606846976; lia|].
  set (seed := hash E (domain_bytes DBeaconAttester ++ to_le 8 e ++ mix)) in *.
  exists (fun sl c => beacon_committee s sl c seed). split.
  - intros sl c Hsl Hc. destruct (get_beacon_committee_ok s sl c Hs) as (mix' & Hm' & Hg).
    + change (2 ^ 60) with 1152921504606846976. subst e. nia.
    + rewrite Hsl; exact Hc.
    + rewrite Hg. rewrite Hsl in *. assert (mix' = mix) as -> by congruence. reflexivity.
  - pose proof (cps_bounds s e) as Hcps.
    rewrite <- (committees_permutation (active_set s e) seed (committees_per_slot s e * SLOTS_PER_EPOCH E)) by nia.
    rewrite (N.mul_comm (committees_per_slot s e)). rewrite rangeN_mul_flat.
    rewrite (flat_map_ext_in _ (fun r => flat_map
       (fun c => committee_of (active_set s e) seed (r * committees_per_slot s e + c)
          (SLOTS_PER_EPOCH E * committees_per_slot s e)) (rangeN (committees_per_slot s e))) (rangeN (SLOTS_PER_EPOCH E))).
    { reflexivity. }
    intros r Hr. apply In_rangeN in Hr. apply flat_map_ext_in. intros c _. unfold beacon_committee.
    replace ((e * SLOTS_PER_EPOCH E + r) / SLOTS_PER_EPOCH E) with e
      by (symmetry; rewrite N.add_comm, N.div_add by lia; rewrite N.div_small by lia; lia).
    replace ((e * SLOTS_PER_EPOCH E + r) mod SLOTS_PER_EPOCH E) with r
      by (symmetry; rewrite N.add_comm, N.mod_add by lia; apply N.mod_small; lia).
    rewrite (N.mul_comm (committees_per_slot s e) (SLOTS_PER_EPOCH E)). reflexivity.
Qed.
End H.
