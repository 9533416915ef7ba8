(** * Proofs about attestations (proof file; no model definitions) *)
From Verif Require Import Base BaseLemmas Types Ctx Env Helpers HelpersAltair HelpersElectra Block StLemmas
  SpecCommon SpecShuffle SpecHelpers SpecElectra SpecOps SpecBlock SpecAtt ShuffleProofs HelperProofs HelperProofs2 OpsProofs SlashProofs BlockProofs.
From Coq Require Import Sorted Permutation.

Section WithEnv.
Variable E : Env.
Hypothesis Hctx : ctx_sane E.
Hypothesis Hwf : hash_wf (hash E).
Hypothesis Hatt : ctx_sane_att E.

Lemma committee_of_spec A seed i count : 0 < count -> i < count -> lenN A <= 2 ^ 40 ->
  lenN (committee_of E A seed i count) = lenN A * (i + 1) / count - lenN A * i / count
  /\ forall j, j < lenN (committee_of E A seed i count) ->
       nthN (committee_of E A seed i count) j = nthN A (spec_shuffle (hash E) seed (lenN A) (SHUFFLE_ROUND_COUNT E) (lenN A * i / count + j)).
Proof.
  intros Hc Hi Hn. unfold committee_of. set (n := lenN A) in *. set (a := n * i / count). set (m := n * (i + 1) / count - a).
  assert (Ham : a + m <= n).
  { unfold m, a. assert (n * (i + 1) / count <= n) by (apply N.div_le_upper_bound; [lia|]; rewrite N.mul_comm; apply N.mul_le_mono_r; lia).
    assert (n * i / count <= n * (i + 1) / count) by (apply N.div_le_mono; nia). lia. }
  clearbody a m. clear Hc Hi count i.
  assert (Hgen : forall k a, a + N.of_nat k <= n ->
    let L := flat_map (fun j => match nthN A (perm E seed n j) with Some v => [v] | None => [] end) (seqN a k) in
    lenN L = N.of_nat k /\ forall j, j < N.of_nat k -> nthN L j = nthN A (perm E seed n (a + j))).
  { clear a m Ham. induction k as [|k IH]; intros a Ha L; unfold L; cbn [seqN flat_map].
    - split; [reflexivity|]. intros j Hj. lia.
    - destruct (nthN_lt A (perm E seed n a)) as [y Hy]; [apply perm_lt; lia|]. rewrite Hy. cbn [app].
      destruct (IH (a + 1)) as [I1 I2]; [lia|]. split.
      + rewrite lenN_cons, I1. lia.
      + intros j Hj. rewrite nthN_cons. destruct (N.eqb_spec j 0) as [->|Hj0]; [rewrite N.add_0_r; congruence|].
        rewrite I2 by lia. f_equal. f_equal. lia. }
  destruct (Hgen (N.to_nat m) a) as [H1 H2]; [lia|]. rewrite N2Nat.id in H1, H2. split; [exact H1|].
  intros j Hj. rewrite H1 in Hj. rewrite H2 by exact Hj. rewrite perm_spec; [reflexivity|exact Hn| |lia].
  unfold ctx_sane in Hctx. lia.
Qed.

Lemma is_committee_fun s sl c x y : is_committee E s sl c x -> is_committee E s sl c y -> x = y.
Proof.
  intros (sd & (m & Hm & Hsd) & Hl & Hx) (sd' & (m' & Hm' & Hsd') & Hl' & Hy). rewrite Hm in Hm'. injection Hm' as <-. subst sd'. rewrite <- Hsd in Hy.
  apply nthN_ext. intros j. destruct (N.lt_ge_cases j (lenN x)) as [Hj|Hj].
  - rewrite Hx by exact Hj. rewrite Hy by (rewrite Hl', <- Hl; exact Hj). reflexivity.
  - rewrite (proj2 (nthN_none x j)) by exact Hj. symmetry. apply nthN_none. rewrite Hl', <- Hl. exact Hj.
Qed.
Lemma committee_spec s sl c com : state_shape E s -> sl < 2 ^ 60 -> c < committees_in_slot E s (sl / SLOTS_PER_EPOCH E) ->
  get_beacon_committee E s sl c = Ok com <-> is_committee E s sl c com.
Proof.
  intros Hsh Hsl Hc. destruct (get_beacon_committee_ok E Hctx Hwf s sl c Hsh Hsl Hc) as (mix & Hm & Hok). rewrite Hok.
  set (seed := hash E (domain_bytes DBeaconAttester ++ to_le 8 (sl / SLOTS_PER_EPOCH E) ++ mix)) in *.
  assert (Hcom : is_committee E s sl c (beacon_committee E s sl c seed)).
  { exists seed. split; [exists mix; split; [exact Hm|reflexivity]|]. unfold beacon_committee. set (e := sl / SLOTS_PER_EPOCH E) in *.
    change (committees_per_slot E s e) with (committees_in_slot E s e).
    assert (Hspe : 1 <= SLOTS_PER_EPOCH E) by (unfold ctx_sane in Hctx; lia).
    pose proof (N.mod_lt sl (SLOTS_PER_EPOCH E) ltac:(lia)) as Hr.
    assert (1 <= committees_in_slot E s e) by (unfold committees_in_slot; lia).
    apply committee_of_spec; [nia|nia|]. eapply N.le_trans; [apply active_set_le|]. apply Hsh. }
  split; [intros [= <-]; exact Hcom|]. intros H. f_equal. eapply is_committee_fun; eassumption.
Qed.

Lemma attesters_fun com bits l l' : attesters com bits l -> attesters com bits l' -> l = l'.
Proof.
  intros [S1 H1] [S2 H2]. assert (Hi : forall v, In v l <-> In v l') by (intros v; rewrite H1, H2; reflexivity). clear H1 H2.
  revert l' S2 Hi. induction S1 as [|x l S1 IH F1]; intros l' S2 Hi.
  - destruct l' as [|y l']; [reflexivity|]. exfalso. apply (Hi y). left; reflexivity.
  - destruct S2 as [|y l' S2 F2]; [exfalso; apply (Hi x); left; reflexivity|].
    rewrite Forall_forall in F1, F2.
    assert (x = y).
    { destruct (proj1 (Hi x) (or_introl eq_refl)) as [|Hx]; [congruence|]. destruct (proj2 (Hi y) (or_introl eq_refl)) as [|Hy]; [congruence|].
      apply F2 in Hx. apply F1 in Hy. lia. }
    subst y. f_equal. apply IH; [exact S2|]. intros v. split; intros Hv.
    + destruct (proj1 (Hi v) (or_intror Hv)) as [->|]; [|assumption]. apply F1 in Hv. lia.
    + destruct (proj2 (Hi v) (or_intror Hv)) as [->|]; [|assumption]. apply F2 in Hv. lia.
Qed.
Lemma attesters_sorted com bits : attesters com bits (isort (dedupN (select_bits bits com))).
Proof.
  split; [apply isort_strict, NoDup_dedupN|]. intros v. rewrite In_isort, In_dedupN. apply In_select_bits.
Qed.

(** ** the window *)
Lemma window_iff f d s b : slot_small s ->
  attestation_window E f d s = Ok b <-> attestation_timely E f s d /\ b = (cp_epoch (ad_target d) =? epoch_of E s).
Proof.
  intros Hs. unfold attestation_window, attestation_timely. rewrite (previous_epoch_ok E Hctx), (current_epoch_ok E Hctx). cbn [rbind].
  assert (Hspe : 1 <= SLOTS_PER_EPOCH E <= 4096) by (clear - Hctx; ctxs Hctx; lia).
  assert (Hd : 1 <= MIN_ATTESTATION_INCLUSION_DELAY E <= 4294967296) by (destruct Hatt as [H _]; pows; lia).
  assert (Hsl : slot s < 72057594037927936) by (unfold slot_small in Hs; pows; lia).
  destruct ((cp_epoch (ad_target d) =? prev_epoch_of E s) || (cp_epoch (ad_target d) =? epoch_of E s)) eqn:H1; cbn [require rbind].
  2:{ split; [discriminate|]. intros [[[H|H] _] _]; rewrite H, N.eqb_refl, ?orb_true_r in H1; discriminate. }
  rewrite (epoch_at_slot_ok E Hctx). cbn [rbind].
  destruct (N.eqb_spec (cp_epoch (ad_target d)) (ad_slot d / SLOTS_PER_EPOCH E)) as [H2|H2]; cbn [require rbind].
  2:{ split; [discriminate|]. intros [(_ & H & _) _]. contradiction. }
  assert (Hep : cp_epoch (ad_target d) <= epoch_of E s).
  { apply orb_true_iff in H1 as [H1|H1]; apply N.eqb_eq in H1; rewrite H1; unfold prev_epoch_of; lia. }
  assert (Hads : ad_slot d < slot s + 4096).
  { rewrite H2 in Hep. unfold epoch_of in Hep.
    pose proof (N.div_mod (ad_slot d) (SLOTS_PER_EPOCH E) ltac:(lia)). pose proof (N.mod_lt (ad_slot d) (SLOTS_PER_EPOCH E) ltac:(lia)).
    pose proof (N.mul_div_le (slot s) (SLOTS_PER_EPOCH E) ltac:(lia)).
    set (q := ad_slot d / SLOTS_PER_EPOCH E) in *. set (q' := slot s / SLOTS_PER_EPOCH E) in *.
    assert (SLOTS_PER_EPOCH E * q <= SLOTS_PER_EPOCH E * q') by (apply N.mul_le_mono_l; exact Hep). lia. }
  unfold add. rewrite uadd_ok by (rewrite U64_val; lia). cbn [rbind].
  assert (Hor : cp_epoch (ad_target d) = epoch_of E s \/ cp_epoch (ad_target d) = prev_epoch_of E s).
  { apply orb_true_iff in H1 as [H1|H1]; apply N.eqb_eq in H1; auto. }
  pose proof (from_deneb_iff f) as Hfd.
  destruct (fork_le Deneb f) eqn:Hf.
  - assert (Hdn : from_deneb f) by (apply Hfd; reflexivity).
    destruct (N.leb_spec (ad_slot d + MIN_ATTESTATION_INCLUSION_DELAY E) (slot s)); cbn [require rbind].
    + split; [intros [= <-]; split; [|reflexivity]; split; [exact Hor|]; split; [exact H2|]; split; [assumption|tauto]|intros [_ ->]; reflexivity].
    + split; [discriminate|]. intros [(_ & _ & H' & _) _]. lia.
  - assert (Hdn : ~ from_deneb f) by (intros H; apply Hfd in H; discriminate).
    rewrite uadd_ok by (rewrite U64_val; lia). cbn [rbind].
    destruct ((ad_slot d + MIN_ATTESTATION_INCLUSION_DELAY E <=? slot s) && (slot s <=? ad_slot d + SLOTS_PER_EPOCH E)) eqn:H3; cbn [require rbind].
    + apply andb_true_iff in H3 as [H3 H4]. apply N.leb_le in H3, H4.
      split; [intros [= <-]; split; [|reflexivity]; auto 6|intros [_ ->]; reflexivity].
    + split; [discriminate|]. intros [(_ & _ & H' & H'') _]. specialize (H'' Hdn). apply andb_false_iff in H3 as [H3|H3]; apply N.leb_gt in H3; lia.
Qed.
Lemma timely_small f d s : slot_small s -> attestation_timely E f s d -> ad_slot d < slot s /\ ad_slot d < 2 ^ 56.
Proof. intros Hs (_ & _ & H & _). destruct Hatt as [H1 _]. unfold slot_small in Hs. lia. Qed.

(** ** committee checks *)
Lemma committee_checks_iff f a s : state_shape E s -> slot_small s -> attestation_timely E f s (at_data a) ->
  attestation_committee_checks E a s = Ok tt <->
  ad_index (at_data a) < committees_in_slot E s (cp_epoch (ad_target (at_data a)))
  /\ exists com, is_committee E s (ad_slot (at_data a)) (ad_index (at_data a)) com /\ lenN (at_aggregation_bits a) = lenN com.
Proof.
  intros Hsh Hs Ht. set (d := at_data a) in *. destruct (timely_small f d s Hs Ht) as [_ Hsl].
  assert (Hsl60 : ad_slot d < 2 ^ 60) by (clear - Hsl; pows; lia).
  unfold attestation_committee_checks. fold d. rewrite (committee_count_ok E Hctx). cbn [rbind].
  change (committees_per_slot E s (cp_epoch (ad_target d))) with (committees_in_slot E s (cp_epoch (ad_target d))).
  destruct (N.ltb_spec (ad_index d) (committees_in_slot E s (cp_epoch (ad_target d)))) as [Hi|Hi]; cbn [require rbind].
  2:{ split; [discriminate|]. intros [H _]. lia. }
  assert (Hi' : ad_index d < committees_in_slot E s (ad_slot d / SLOTS_PER_EPOCH E)) by (destruct Ht as (_ & <- & _); exact Hi).
  destruct (get_beacon_committee_ok E Hctx Hwf s (ad_slot d) (ad_index d) Hsh Hsl60 Hi') as (mix & _ & Hok).
  rewrite Hok. cbn [rbind]. rewrite require_ok, N.eqb_eq. apply committee_spec in Hok; [|assumption..]. split.
  - intros H. split; [exact Hi|]. eauto.
  - intros [_ (com & Hc & H)]. rewrite H. f_equal. eapply is_committee_fun; eassumption.
Qed.

Lemma indexed_iff a s com : get_beacon_committee E s (ad_slot (at_data a)) (ad_index (at_data a)) = Ok com ->
  lenN (at_aggregation_bits a) = lenN com ->
  get_attesting_indices E s (at_data a) (at_aggregation_bits a) = Ok (dedupN (select_bits (at_aggregation_bits a) com))
  /\ forall ia, get_indexed_attestation E s a = Ok ia <->
      lenN (ia_attesting_indices ia) <= MAX_VALIDATORS_PER_COMMITTEE E /\ attesters com (at_aggregation_bits a) (ia_attesting_indices ia)
      /\ ia = mkIndexed (ia_attesting_indices ia) (at_data a) (at_signature a).
Proof.
  intros Hc Hl. pose proof (get_attesting_indices_ok E s _ (at_aggregation_bits a) _ Hc) as Hai. rewrite Hl, N.eqb_refl in Hai.
  split; [exact Hai|]. intros ia. unfold get_indexed_attestation. rewrite Hai. cbn [rbind].
  pose proof (attesters_sorted com (at_aggregation_bits a)) as Hs. set (l := isort _) in *.
  destruct (N.ltb_spec (MAX_VALIDATORS_PER_COMMITTEE E) (lenN l)) as [Hgt|Hle].
  - split; [discriminate|]. intros (H1 & H2 & _). rewrite (attesters_fun _ _ _ _ H2 Hs) in H1. lia.
  - split.
    + intros [= <-]. cbn [ia_attesting_indices]. auto.
    + intros (_ & H2 & ->). rewrite (attesters_fun _ _ _ _ H2 Hs). reflexivity.
Qed.

(** ** phase0 *)
Lemma att_phase0_iff a s p r : state_shape E s -> slot_small s -> get_beacon_proposer_index E s = Ok p ->
  attestation_checks_phase0 E a s = Ok r <->
  (exists l, attestation_valid E Phase0 s a l)
  /\ r = (cp_epoch (ad_target (at_data a)) =? epoch_of E s, mkPending (at_aggregation_bits a) (at_data a) (slot s - ad_slot (at_data a)) p).
Proof.
  intros Hsh Hs Hp. unfold attestation_checks_phase0. set (d := at_data a). rewrite Hp.
  assert (Hj : forall b, b = (cp_epoch (ad_target d) =? epoch_of E s) ->
     (if b then current_justified_checkpoint s else previous_justified_checkpoint s) = justified_for E s d).
  { intros b ->. reflexivity. }
  split.
  - intros H. apply rbind_ok_inv in H as (b & Hw & H). apply window_iff in Hw as [Ht Hb]; [|exact Hs].
    apply rbind_ok_inv in H as ([] & Hcc & H). apply (committee_checks_iff Phase0) in Hcc as [Hi (com & Hcom & Hlen)]; [|assumption..]. fold d in Hi, Hcom.
    destruct (timely_small Phase0 d s Hs Ht) as [Hlt Hsl].
    assert (Hg : get_beacon_committee E s (ad_slot d) (ad_index d) = Ok com).
    { apply committee_spec; [exact Hsh|clear - Hsl; pows; lia|destruct Ht as (_ & <- & _); exact Hi|exact Hcom]. }
    apply rbind_ok_inv in H as (ia & Hia & H). apply (proj2 (indexed_iff a s com Hg Hlen)) in Hia as (Hmax & Hat & Hiae).
    apply rbind_ok_inv in H as ([] & Hv & H). apply valid_indexed_iff in Hv.
    unfold sub in H. rewrite usub_ok in H by lia. cbn [rbind] in H.
    apply rbind_ok_inv in H as ([] & Hsrc & H). apply Ok_inj in H. subst r. rewrite (Hj b Hb) in Hsrc. apply require_ok in Hsrc. unfold Checkpoint_eqb in Hsrc.
    split; [|subst b; reflexivity]. exists (ia_attesting_indices ia). split; [exact Ht|]. split; [exact Hi|].
    split; [destruct (Checkpoint_eq_dec (ad_source d) (justified_for E s d)); [assumption|discriminate]|].
    split; [eauto|]. split; [exact Hmax|]. rewrite Hiae in Hv. exact Hv.
  - intros [(l & Ht & Hi & Hsrc & (com & Hcom & Hlen & Hat) & Hmax & Hv) ->]. fold d in Ht, Hi, Hsrc, Hcom.
    destruct (timely_small Phase0 d s Hs Ht) as [Hlt Hsl].
    assert (Hg : get_beacon_committee E s (ad_slot d) (ad_index d) = Ok com).
    { apply committee_spec; [exact Hsh|clear - Hsl; pows; lia|destruct Ht as (_ & <- & _); exact Hi|exact Hcom]. }
    rewrite (proj2 (window_iff Phase0 d s _ Hs) (conj Ht eq_refl)). cbn [rbind].
    rewrite (proj2 (committee_checks_iff Phase0 a s Hsh Hs Ht)) by eauto. cbn [rbind].
    rewrite (proj2 (proj2 (indexed_iff a s com Hg Hlen) (mkIndexed l d (at_signature a)))) by auto. cbn [rbind].
    rewrite (proj2 (valid_indexed_iff E s (mkIndexed l d (at_signature a))) Hv). cbn [rbind].
    unfold sub. rewrite usub_ok by lia. cbn [rbind]. rewrite Hj by reflexivity. fold d in Hsrc. rewrite Hsrc at 1. unfold Checkpoint_eqb.
    destruct (Checkpoint_eq_dec (justified_for E s d) (justified_for E s d)); [reflexivity|contradiction].
Qed.

(** ** altair to deneb: flags *)
Lemma block_root_at s sl : state_shape E s -> slot_small s -> sl < slot s -> slot s <= sl + SLOTS_PER_HISTORICAL_ROOT E ->
  exists r, recorded_root E s sl = Some r /\ get_block_root_at_slot E s sl = Ok r.
Proof.
  intros Hsh Hs H1 H2. unfold get_block_root_at_slot, recorded_root.
  assert (Hr : 1 <= SLOTS_PER_HISTORICAL_ROOT E <= 4294967296) by (clear - Hctx; ctxs Hctx; lia).
  assert (Hsl : slot s < 72057594037927936) by (unfold slot_small in Hs; pows; lia).
  destruct (nthN_lt (block_roots s) (sl mod SLOTS_PER_HISTORICAL_ROOT E)) as [r Hn].
  { destruct Hsh as (-> & _). apply N.mod_lt. lia. }
  exists r. split; [exact Hn|]. destruct (N.leb_spec (slot s) sl); [lia|]. unfold add. rewrite uadd_ok by (rewrite U64_val; lia). cbn [rbind].
  destruct (N.ltb_spec (sl + SLOTS_PER_HISTORICAL_ROOT E) (slot s)); [lia|]. rewrite umod_ok by lia. cbn [rbind]. apply idx_ok. exact Hn.
Qed.
Lemma timely_recent f d s : slot_small s -> attestation_timely E f s d ->
  slot s <= ad_slot d + SLOTS_PER_HISTORICAL_ROOT E
  /\ cp_epoch (ad_target d) * SLOTS_PER_EPOCH E < slot s /\ slot s <= cp_epoch (ad_target d) * SLOTS_PER_EPOCH E + SLOTS_PER_HISTORICAL_ROOT E.
Proof.
  intros Hs Ht. destruct (timely_small f d s Hs Ht) as [Hlt _]. destruct Ht as (Hor & He & _ & _). destruct Hatt as (_ & H2 & _).
  assert (Hspe : 1 <= SLOTS_PER_EPOCH E) by (clear - Hctx; ctxs Hctx; lia). rewrite He in *.
  pose proof (N.div_mod (ad_slot d) (SLOTS_PER_EPOCH E) ltac:(lia)). pose proof (N.mod_lt (ad_slot d) (SLOTS_PER_EPOCH E) ltac:(lia)).
  pose proof (N.div_mod (slot s) (SLOTS_PER_EPOCH E) ltac:(lia)). pose proof (N.mod_lt (slot s) (SLOTS_PER_EPOCH E) ltac:(lia)).
  unfold epoch_of, prev_epoch_of, epoch_of in Hor. clear He. set (q := ad_slot d / SLOTS_PER_EPOCH E) in *. set (q' := slot s / SLOTS_PER_EPOCH E) in *.
  clear Hctx. rewrite (N.mul_comm q). assert (q' <= q + 1) by lia.
  assert (SLOTS_PER_EPOCH E * q' <= SLOTS_PER_EPOCH E * q + SLOTS_PER_EPOCH E) by nia. lia.
Qed.

Lemma sqrt_iff a n : a <= N.sqrt n <-> a * a <= n.
Proof. pose proof (N.sqrt_spec' n). cbv zeta in H. split; intros; nia. Qed.

Lemma flags_after f f' s d delay : state_shape E s -> slot_small s -> attestation_timely E f' s d ->
  (ad_source d <> justified_for E s d -> get_attestation_participation_flag_indices E f s d delay = Err EAttInvalidSource)
  /\ (ad_source d = justified_for E s d -> exists flags, get_attestation_participation_flag_indices E f s d delay = Ok flags
       /\ NoDup flags /\ forall k, In k flags <-> earns_after E f s d delay k).
Proof.
  intros Hsh Hs Ht. unfold get_attestation_participation_flag_indices. rewrite (current_epoch_ok E Hctx). cbn [rbind].
  fold (justified_for E s d). unfold Checkpoint_eqb.
  destruct (Checkpoint_eq_dec (ad_source d) (justified_for E s d)) as [Heq|Hne].
  2:{ split; [|contradiction]. intros _. reflexivity. }
  split; [contradiction|]. intros _. cbn [negb].
  destruct (timely_recent f' d s Hs Ht) as (R1 & R2 & R3). destruct (timely_small f' d s Hs Ht) as [Hlt Hsm].
  destruct (block_root_at s (cp_epoch (ad_target d) * SLOTS_PER_EPOCH E) Hsh Hs R2 R3) as (tr & Htr & Hgt).
  destruct (block_root_at s (ad_slot d) Hsh Hs Hlt R1) as (hr & Hhr & Hgh).
  unfold get_block_root. unfold compute_start_slot_at_epoch, mul. rewrite umul_ok by (unfold slot_small in Hs; pows; lia). cbn [rbind].
  rewrite Hgt. cbn [rbind].
  assert (HT : bytes_eqb (cp_root (ad_target d)) tr = true <-> target_matches E s d).
  { rewrite bytes_eqb_true. unfold target_matches. rewrite Htr. intuition congruence. }
  assert (HH : bytes_eqb (ad_beacon_block_root d) hr = true <-> recorded_root E s (ad_slot d) = Some (ad_beacon_block_root d)).
  { rewrite bytes_eqb_true. rewrite Hhr. intuition congruence. }
  assert (Hmh : exists mh : bool, (if bytes_eqb (cp_root (ad_target d)) tr
      then let! hr := get_block_root_at_slot E s (ad_slot d) in Ok (bytes_eqb (ad_beacon_block_root d) hr) else Ok false) = Ok mh
      /\ (mh = true <-> head_matches E s d)).
  { destruct (bytes_eqb (cp_root (ad_target d)) tr) eqn:Hx.
    - rewrite Hgh. cbn [rbind]. eexists. split; [reflexivity|]. unfold head_matches. rewrite <- HT, <- HH. tauto.
    - exists false. split; [reflexivity|]. unfold head_matches. rewrite <- HT. intuition discriminate. }
  destruct Hmh as (mh & -> & HM). cbn [rbind]. eexists. split; [reflexivity|].
  assert (HS : delay <=? N.sqrt (SLOTS_PER_EPOCH E) = true <-> delay * delay <= SLOTS_PER_EPOCH E) by (rewrite N.leb_le; apply sqrt_iff).
  assert (HF : (if fork_le Deneb f then true else delay <=? SLOTS_PER_EPOCH E) = true <-> from_deneb f \/ delay <= SLOTS_PER_EPOCH E).
  { rewrite <- from_deneb_iff. destruct (fork_le Deneb f); [tauto|]. rewrite N.leb_le. intuition discriminate. }
  assert (HD : delay =? MIN_ATTESTATION_INCLUSION_DELAY E = true <-> delay = MIN_ATTESTATION_INCLUSION_DELAY E) by apply N.eqb_eq.
  set (bs := delay <=? N.sqrt (SLOTS_PER_EPOCH E)) in *. set (bt := bytes_eqb (cp_root (ad_target d)) tr) in *.
  set (bf := if fork_le Deneb f then true else delay <=? SLOTS_PER_EPOCH E) in *. set (bd := delay =? MIN_ATTESTATION_INCLUSION_DELAY E) in *.
  assert (He : forall k, earns_after E f s d delay k <-> (k = 0 /\ bs = true) \/ (k = 1 /\ bt = true /\ bf = true) \/ (k = 2 /\ mh = true /\ bd = true)).
  { intros k. unfold earns_after. rewrite HT, HM, HS, HF, HD. reflexivity. }
  clear - He. unfold TIMELY_SOURCE_FLAG_INDEX, TIMELY_TARGET_FLAG_INDEX, TIMELY_HEAD_FLAG_INDEX. clearbody bs bt bf bd. split.
  - destruct bs, (bt && bf), (mh && bd); cbn [app]; repeat constructor; cbn [In]; intuition discriminate.
  - intros k. rewrite He, !in_app_iff. rewrite <- (andb_true_iff bt bf), <- (andb_true_iff mh bd).
    destruct bs, (bt && bf), (mh && bd); cbn [In]; intuition (congruence || discriminate).
Qed.

Lemma flags_iff f s d : state_shape E s -> slot_small s -> attestation_timely E f s d ->
  (ad_source d <> justified_for E s d -> get_attestation_participation_flag_indices E f s d (slot s - ad_slot d) = Err EAttInvalidSource)
  /\ (ad_source d = justified_for E s d -> exists flags, get_attestation_participation_flag_indices E f s d (slot s - ad_slot d) = Ok flags
       /\ NoDup flags /\ forall k, In k flags <-> earns E f s d k).
Proof. apply flags_after. Qed.

Definition altair_to_deneb (f : Fork) : Prop := f = Altair \/ f = Bellatrix \/ f = Capella \/ f = Deneb.

Lemma att_altair_checks f a s l : altair_to_deneb f -> state_shape E s -> slot_small s -> attestation_valid E f s a l ->
  exists flags ai, attestation_checks E f a s = Ok (cp_epoch (ad_target (at_data a)) =? epoch_of E s, flags, ai)
    /\ NoDup flags /\ (forall k, In k flags <-> earns E f s (at_data a) k) /\ NoDup ai /\ (forall i, In i ai <-> In i l).
Proof.
  intros Hf Hsh Hs (Ht & Hi & Hsrc & (com & Hcom & Hlen & Hat) & Hmax & Hv). set (d := at_data a) in *.
  destruct (timely_small f d s Hs Ht) as [Hlt Hsl].
  assert (Hg : get_beacon_committee E s (ad_slot d) (ad_index d) = Ok com).
  { apply committee_spec; [exact Hsh|clear - Hsl; pows; lia|destruct Ht as (_ & <- & _); exact Hi|exact Hcom]. }
  destruct (flags_iff f s d Hsh Hs Ht) as [_ Hfl]. destruct (Hfl Hsrc) as (flags & Hfl1 & Hnd & Hfl2).
  destruct (indexed_iff a s com Hg Hlen) as [Hai Hia].
  exists flags, (dedupN (select_bits (at_aggregation_bits a) com)).
  split; [|split; [exact Hnd|split; [exact Hfl2|split; [apply NoDup_dedupN|]]]].
  2:{ intros j. rewrite In_dedupN, In_select_bits. destruct Hat as [_ Hat]. rewrite Hat. reflexivity. }
  unfold attestation_checks. fold d.
  rewrite (proj2 (window_iff f d s _ Hs) (conj Ht eq_refl)). cbn [rbind].
  assert (Hcc : match f with Electra => attestation_committee_checks_electra E a s | _ => attestation_committee_checks E a s end = Ok tt).
  { replace (match f with Electra => _ | _ => _ end) with (attestation_committee_checks E a s) by (destruct Hf as [->|[->|[->| ->]]]; reflexivity).
    apply (committee_checks_iff f); eauto. }
  rewrite Hcc. cbn [rbind]. unfold sub. rewrite usub_ok by lia. cbn [rbind]. rewrite Hfl1. cbn [rbind].
  replace (match f with Electra => get_indexed_attestation_electra E s a | _ => get_indexed_attestation E s a end)
    with (get_indexed_attestation E s a) by (destruct Hf as [->|[->|[->| ->]]]; reflexivity).
  rewrite (proj2 (Hia (mkIndexed l d (at_signature a)))) by auto. cbn [rbind].
  rewrite (proj2 (valid_indexed_iff E s (mkIndexed l d (at_signature a))) Hv). cbn [rbind].
  replace (match f with Electra => get_attesting_indices_electra E s a | _ => get_attesting_indices E s d (at_aggregation_bits a) end)
    with (get_attesting_indices E s d (at_aggregation_bits a)) by (destruct Hf as [->|[->|[->| ->]]]; reflexivity).
  unfold d at 1. rewrite Hai. reflexivity.
Qed.
Lemma att_altair_checks_inv f a s r : altair_to_deneb f -> state_shape E s -> slot_small s -> attestation_checks E f a s = Ok r ->
  exists l, attestation_valid E f s a l.
Proof.
  intros Hf Hsh Hs H. unfold attestation_checks in H. set (d := at_data a) in *.
  apply rbind_ok_inv in H as (b & Hw & H). apply window_iff in Hw as [Ht Hb]; [|exact Hs].
  replace (match f with Electra => attestation_committee_checks_electra E a s | _ => attestation_committee_checks E a s end)
    with (attestation_committee_checks E a s) in H by (destruct Hf as [->|[->|[->| ->]]]; reflexivity).
  replace (match f with Electra => get_indexed_attestation_electra E s a | _ => get_indexed_attestation E s a end)
    with (get_indexed_attestation E s a) in H by (destruct Hf as [->|[->|[->| ->]]]; reflexivity).
  apply rbind_ok_inv in H as ([] & Hcc & H). apply (committee_checks_iff f) in Hcc as [Hi (com & Hcom & Hlen)]; [|assumption..]. fold d in Hi, Hcom.
  destruct (timely_small f d s Hs Ht) as [Hlt Hsl].
  assert (Hg : get_beacon_committee E s (ad_slot d) (ad_index d) = Ok com).
  { apply committee_spec; [exact Hsh|clear - Hsl; pows; lia|destruct Ht as (_ & <- & _); exact Hi|exact Hcom]. }
  unfold sub in H. rewrite usub_ok in H by lia. cbn [rbind] in H.
  apply rbind_ok_inv in H as (flags & Hfl & H).
  apply rbind_ok_inv in H as (ia & Hia & H). apply (proj2 (indexed_iff a s com Hg Hlen)) in Hia as (Hmax & Hat & Hiae).
  apply rbind_ok_inv in H as ([] & Hv & H). apply valid_indexed_iff in Hv.
  exists (ia_attesting_indices ia). split; [exact Ht|]. split; [exact Hi|]. split.
  - destruct (Checkpoint_eq_dec (ad_source d) (justified_for E s d)) as [|Hne]; [assumption|].
    rewrite (proj1 (flags_iff f s d Hsh Hs Ht) Hne) in Hfl. discriminate.
  - split; [eauto|]. split; [exact Hmax|]. rewrite Hiae in Hv. exact Hv.
Qed.

(** ** rewards *)
Lemma has_flag_bit p k : has_flag p k = N.testbit p k.
Proof.
  unfold has_flag. destruct (N.testbit p k) eqn:Hb.
  - apply N.eqb_eq. apply N.bits_inj. intros j. rewrite N.land_spec, N.pow2_bits_eqb. destruct (N.eqb_spec k j) as [->|]; [rewrite Hb; reflexivity|apply andb_false_r].
  - apply N.eqb_neq. intros H. apply (f_equal (fun x => N.testbit x k)) in H. rewrite N.land_spec, Hb, N.pow2_bits_true in H. discriminate.
Qed.
Lemma add_flag_set p k : add_flag p k = N.setbit p k.
Proof. unfold add_flag. rewrite N.setbit_spec'. reflexivity. Qed.
Lemma setbit_id p k : N.testbit p k = true -> N.setbit p k = p.
Proof. intros H. apply N.bits_inj. intros j. rewrite N.setbit_eqb. destruct (N.eqb_spec k j) as [->|]; [rewrite H; reflexivity|reflexivity]. Qed.

Lemma base_reward_ok s i : active_balance_fits E s -> i < lenN (validators s) -> base_reward E s i < U64 ->
  get_base_reward E s i = Ok (base_reward E s i).
Proof.
  intros Hfit Hi Hb. destruct (nthN_lt _ _ Hi) as [v Hv]. unfold get_base_reward, get_base_reward_per_increment.
  pose proof Hv as Hv'. apply idx_ok in Hv'. rewrite Hv'. cbn [rbind].
  assert (Hinc : 1 <= EFFECTIVE_BALANCE_INCREMENT E) by (clear - Hctx; ctxs Hctx; lia).
  rewrite udiv_ok by lia. cbn [rbind]. unfold mul. rewrite umul_ok by (destruct Hatt as (_ & _ & H); exact H). cbn [rbind].
  rewrite (get_total_active_balance_ok E s Hctx). destruct (N.ltb_spec (effective_sum s (active_set s (epoch_of E s))) U64) as [_|Hge].
  2:{ unfold active_balance_fits in Hfit. change (2 ^ 64) with U64 in Hfit. lia. }
  change (total_active E s) with (active_balance E s). cbn [rbind].
  assert (Hsq : N.sqrt (active_balance E s) <> 0).
  { intros H. assert (1 <= N.sqrt (active_balance E s)) by (apply sqrt_iff; unfold active_balance; lia). lia. }
  rewrite udiv_ok by exact Hsq. cbn [rbind]. unfold base_reward in *. rewrite (effective_balance_of_some s i v Hv) in *. apply umul_ok. exact Hb.
Qed.

Section Loop.
Variables (s : BeaconState) (b : bool) (flags : list N).
Hypothesis Hfit : active_balance_fits E s.
Notation sp := (fun part => set_participation b part s).
Lemma sp_part part : participation b (sp part) = part. Proof. destruct b; reflexivity. Qed.
Lemma sp_sp part part' : set_participation b part (sp part') = sp part. Proof. destruct b; reflexivity. Qed.
Lemma sp_reward part i : get_base_reward E (sp part) i = get_base_reward E s i. Proof. destruct b; reflexivity. Qed.

Definition step_gain (i p k w : N) : N := if memN k flags && negb (N.testbit p k) then base_reward E s i * w else 0.
Definition step_part (p k : N) : N := if memN k flags then N.setbit p k else p.
Lemma flag_step_ok part i p num k w : nthN part i = Some p -> i < lenN (validators s) -> 1 <= w ->
  num + step_gain i p k w < U64 ->
  attestation_flag_step E b flags i num (k, w) (sp part) = (Ok (num + step_gain i p k w), sp (updN part i (step_part p k))).
Proof.
  intros Hp Hi Hw Hlt. unfold attestation_flag_step, step_gain, step_part in *. cbn [fst snd]. destruct (memN k flags); cbn [andb] in *.
  2:{ rewrite N.add_0_r, updN_id by exact Hp. reflexivity. }
  rewrite (run_rd _ _ _ p) by (rewrite sp_part; apply idx_ok; exact Hp). rewrite has_flag_bit. destruct (N.testbit p k) eqn:Hb; cbn [negb] in *.
  - rewrite setbit_id by exact Hb. rewrite updN_id by exact Hp. rewrite N.add_0_r. reflexivity.
  - rewrite run_md. rewrite sp_part, sp_sp, add_flag_set. unfold rd. rewrite sp_reward.
    assert (Hbr : base_reward E s i < U64) by (set (x := base_reward E s i) in *; nia).
    rewrite base_reward_ok by assumption. cbn [rbind]. unfold mul, add. rewrite umul_ok by lia. cbn [rbind]. rewrite uadd_ok by lia. reflexivity.
Qed.
Definition gain3 (i p : N) : N :=
  step_gain i p 0 14 + step_gain i (step_part p 0) 1 26 + step_gain i (step_part (step_part p 0) 1) 2 14.
Definition part3 (p : N) : N := step_part (step_part (step_part p 0) 1) 2.
Lemma inner_ok part i p num : nthN part i = Some p -> i < lenN (validators s) -> num + gain3 i p < U64 ->
  sfold (attestation_flag_step E b flags i) FLAG_WEIGHTS num (sp part) = (Ok (num + gain3 i p), sp (updN part i (part3 p))).
Proof.
  intros Hp Hi Hlt. unfold gain3, part3, FLAG_WEIGHTS in *. cbn [sfold].
  assert (Hlen : i < lenN part) by (eapply nthN_some; eauto).
  rewrite (run_bind _ _ _ _ _ (flag_step_ok part i p num 0 14 Hp Hi ltac:(lia) ltac:(lia))).
  pose proof (nthN_updN_eq part i (step_part p 0) Hlen) as H1.
  rewrite (run_bind _ _ _ _ _ (flag_step_ok _ i _ (num + step_gain i p 0 14) 1 26 H1 Hi ltac:(lia) ltac:(lia))). rewrite updN_updN.
  pose proof (nthN_updN_eq part i (step_part (step_part p 0) 1) Hlen) as H2.
  rewrite (run_bind _ _ _ _ _ (flag_step_ok _ i _ (num + step_gain i p 0 14 + step_gain i (step_part p 0) 1 26) 2 14 H2 Hi ltac:(lia) ltac:(lia))). rewrite updN_updN.
  unfold sret. f_equal. f_equal. lia.
Qed.
Lemma outer_ok l : forall part num, NoDup l -> (forall i, In i l -> i < lenN (validators s) /\ i < lenN part) ->
  num + sumN (map (fun i => gain3 i (match nthN part i with Some p => p | None => 0 end)) l) < U64 ->
  exists part', sfold (fun num i => sfold (attestation_flag_step E b flags i) FLAG_WEIGHTS num) l num (sp part)
      = (Ok (num + sumN (map (fun i => gain3 i (match nthN part i with Some p => p | None => 0 end)) l)), sp part')
    /\ lenN part' = lenN part
    /\ (forall i p, In i l -> nthN part i = Some p -> nthN part' i = Some (part3 p))
    /\ (forall i, ~ In i l -> nthN part' i = nthN part i).
Proof.
  induction l as [|i l IH]; intros part num Hnd Hin Hlt; cbn [map] in *.
  - exists part. cbn [sfold]. rewrite N.add_0_r. unfold sret. split; [reflexivity|]. split; [reflexivity|]. split; [intros ? ? []|reflexivity].
  - rewrite sumN_cons in Hlt. rewrite sumN_cons. inversion Hnd as [|? ? Hni Hnd']; subst. destruct (Hin i (or_introl eq_refl)) as [Hv Hp].
    destruct (nthN_lt _ _ Hp) as [p Hpp]. rewrite Hpp in *. cbn [sfold].
    rewrite (run_bind _ _ _ _ _ (inner_ok part i p num Hpp Hv ltac:(lia))).
    assert (Hmap : map (fun j => gain3 j (match nthN (updN part i (part3 p)) j with Some p => p | None => 0 end)) l
                 = map (fun j => gain3 j (match nthN part j with Some p => p | None => 0 end)) l).
    { apply map_ext_in. intros j Hj. rewrite nthN_updN_ne; [reflexivity|]. intros ->; contradiction. }
    destruct (IH (updN part i (part3 p)) (num + gain3 i p) Hnd') as (part' & H1 & H2 & H3 & H4).
    + intros j Hj. rewrite lenN_updN. apply Hin. right; exact Hj.
    + rewrite Hmap. lia.
    + rewrite Hmap in H1. exists part'. split; [rewrite H1; do 2 f_equal; lia|]. split; [rewrite H2; apply lenN_updN|]. split.
      * intros j q [->|Hj] Hq.
        -- rewrite H4 by exact Hni. rewrite nthN_updN_eq by exact Hp. congruence.
        -- apply H3; [exact Hj|]. rewrite nthN_updN_ne; [exact Hq|]. intros ->; contradiction.
      * intros j Hj. rewrite H4 by (intros H; apply Hj; right; exact H). apply nthN_updN_ne. intros ->. apply Hj. left; reflexivity.
Qed.

Hypothesis Hnd : NoDup flags.
Hypothesis Hsub : forall k, In k flags -> k = 0 \/ k = 1 \/ k = 2.
Lemma flags_perm : Permutation flags (filter (fun k => memN k flags) [0; 1; 2]).
Proof.
  apply NoDup_Permutation; [exact Hnd|apply NoDup_filter; repeat constructor; cbn; intuition discriminate|].
  intros k. rewrite filter_In, memN_true. split; [|tauto]. intros H. split; [|exact H]. destruct (Hsub k H) as [->|[->| ->]]; cbn; auto.
Qed.
Lemma with_flags_bit : forall l p k, N.testbit (with_flags l p) k = N.testbit p k || memN k l.
Proof.
  induction l as [|x l IH]; intros p k; cbn [with_flags fold_left]; [rewrite orb_false_r; reflexivity|].
  fold (with_flags l (N.setbit p x)). rewrite IH, N.setbit_eqb. cbn [memN existsb]. fold (memN k l). rewrite (N.eqb_sym x k). destruct (N.testbit p k), (k =? x), (memN k l); reflexivity.
Qed.
Lemma part3_spec p : part3 p = with_flags flags p.
Proof.
  apply N.bits_inj. intros k. rewrite with_flags_bit. unfold part3, step_part.
  destruct (memN 0 flags) eqn:H0; destruct (memN 1 flags) eqn:H1; destruct (memN 2 flags) eqn:H2; rewrite ?N.setbit_eqb;
  (destruct (N.eqb_spec 0 k) as [<-|K0]; [rewrite ?H0; destruct (N.testbit p 0); reflexivity|]);
  (destruct (N.eqb_spec 1 k) as [<-|K1]; [rewrite ?H1; destruct (N.testbit p 1); reflexivity|]);
  (destruct (N.eqb_spec 2 k) as [<-|K2]; [rewrite ?H2; destruct (N.testbit p 2); reflexivity|]);
  (assert (Hk : memN k flags = false) by (apply memN_false; intros Hk; destruct (Hsub k Hk) as [?|[?|?]]; congruence));
  rewrite Hk, orb_false_r; reflexivity.
Qed.
Lemma gain3_spec i p : gain3 i p = base_reward E s i * new_weight flags p.
Proof.
  assert (Hw : new_weight flags p = sumN (map flag_weight (new_flags (filter (fun k => memN k flags) [0; 1; 2]) p))).
  { unfold new_weight, new_flags. apply sumN_perm, Permutation_map.
    assert (Hpf : forall (g : N -> bool) l l', Permutation l l' -> Permutation (filter g l) (filter g l')).
    { intros g l l' H. induction H; cbn [filter]; [constructor|destruct (g x); [constructor|]; assumption| |eapply perm_trans; eassumption].
      destruct (g x), (g y); try reflexivity. apply perm_swap. }
    apply Hpf, flags_perm. }
  rewrite Hw. unfold gain3, step_gain, new_flags.
  assert (T1 : N.testbit (step_part p 0) 1 = N.testbit p 1).
  { unfold step_part. destruct (memN 0 flags); [apply N.setbit_neq; discriminate|reflexivity]. }
  assert (T2 : N.testbit (step_part (step_part p 0) 1) 2 = N.testbit p 2).
  { unfold step_part. destruct (memN 0 flags), (memN 1 flags); rewrite ?N.setbit_neq by discriminate; reflexivity. }
  rewrite T1, T2. generalize (base_reward E s i). intros r. clear. cbn [filter].
  assert (W : flag_weight 0 = 14 /\ flag_weight 1 = 26 /\ flag_weight 2 = 14) by (vm_compute; auto). destruct W as (W0 & W1 & W2).
  destruct (memN 0 flags), (memN 1 flags), (memN 2 flags); cbn [filter andb negb];
  destruct (N.testbit p 0) eqn:B0; cbn [filter andb negb]; destruct (N.testbit p 1) eqn:B1; cbn [filter andb negb];
  destruct (N.testbit p 2) eqn:B2; cbn [filter andb negb map]; rewrite ?sumN_cons, ?W0, ?W1, ?W2; change (sumN []) with 0; lia.
Qed.
End Loop.

Lemma att_altair_run f a s l p : altair_to_deneb f -> state_shape E s -> slot_small s -> active_balance_fits E s ->
  lenN (current_epoch_participation s) = lenN (validators s) -> lenN (previous_epoch_participation s) = lenN (validators s) ->
  attestation_valid E f s a l -> get_beacon_proposer_index E s = Ok p -> p < lenN (balances s) ->
  exists flags, NoDup flags /\ (forall k, In k flags <-> earns E f s (at_data a) k) /\
  let part := participation_for E s (at_data a) in
  let gain := newly_earned E s part flags l in
  (gain < 2 ^ 64 -> (forall b, nthN (balances s) p = Some b -> b + gain / 448 < 2 ^ 64) ->
   exists part', process_attestation_altair E f a s =
       (Ok tt, set_balances (credit p (gain / 448) (balances s)) (with_participation E (at_data a) part' s))
     /\ lenN part' = lenN part
     /\ (forall i q, In i l -> nthN part i = Some q -> nthN part' i = Some (with_flags flags q))
     /\ (forall i, ~ In i l -> nthN part' i = nthN part i)).
Proof.
  intros Hf Hsh Hs Hfit Hl1 Hl2 Hval Hp Hpb.
  destruct (att_altair_checks f a s l Hf Hsh Hs Hval) as (flags & ai & Hok & Hnd & Hfl & Hndai & Hai).
  exists flags. split; [exact Hnd|]. split; [exact Hfl|]. intros part gain Hgain Hbal.
  set (b := cp_epoch (ad_target (at_data a)) =? epoch_of E s) in *.
  assert (Hsub : forall k, In k flags -> k = 0 \/ k = 1 \/ k = 2).
  { intros k Hk. apply Hfl in Hk. destruct Hk as [[-> _]|[[-> _]|[-> _]]]; auto. }
  assert (Hidx : forall i, In i l -> i < lenN (validators s)).
  { destruct Hval as (_ & _ & _ & _ & _ & (_ & _ & pks & _ & _ & Hpk & _)). cbn [ia_attesting_indices] in Hpk.
    clear - Hpk. induction Hpk as [|x y l k (v & Hv & _) Hpk IH]; intros i Hi; [destruct Hi|]. destruct Hi as [<-|Hi]; [eapply nthN_some; eauto|auto]. }
  assert (Hperm : Permutation ai l).
  { apply NoDup_Permutation; [exact Hndai| |exact Hai]. destruct Hval as (_ & _ & _ & (com & _ & _ & (Hss & _)) & _).
    clear - Hss. induction Hss as [|x l H IH F]; constructor; [|exact IH]. rewrite Forall_forall in F. intros Hx. apply F in Hx. lia. }
  assert (Hpart : participation b s = part) by reflexivity.
  assert (Hs0 : s = set_participation b part s) by (rewrite <- Hpart; destruct b; [symmetry; apply set_current_epoch_participation_id|symmetry; apply set_previous_epoch_participation_id]).
  assert (Hlen : lenN part = lenN (validators s)) by (unfold part, participation_for; destruct (cp_epoch (ad_target (at_data a)) =? epoch_of E s); assumption).
  assert (Hg : sumN (map (fun i => gain3 s flags i (match nthN part i with Some p => p | None => 0 end)) ai) = gain).
  { unfold gain, newly_earned. rewrite (sumN_perm _ _ (Permutation_map _ Hperm)). f_equal. apply map_ext. intros i. apply gain3_spec; assumption. }
  destruct (outer_ok s b flags Hfit ai part 0 Hndai) as (part' & H1 & H2 & H3 & H4).
  { intros i Hi. apply Hai, Hidx in Hi. rewrite Hlen. auto. }
  { rewrite Hg. change (2 ^ 64) with U64 in Hgain. lia. }
  rewrite Hg, N.add_0_l in H1. rewrite <- Hs0 in H1.
  exists part'. split; [|split; [exact H2|split]].
  - unfold process_attestation_altair. rewrite (run_rd _ _ _ _ Hok). rewrite (run_bind _ _ _ _ _ H1).
    change ((WEIGHT_DENOMINATOR - PROPOSER_WEIGHT) * WEIGHT_DENOMINATOR / PROPOSER_WEIGHT) with 448.
    rewrite (run_lift _ _ _ (gain / 448)) by (apply udiv_ok; discriminate).
    assert (Hp' : get_beacon_proposer_index E (set_participation b part' s) = Ok p).
    { rewrite <- Hp. apply proposer_ext; [exact Hctx|]. apply same_duties_fields; destruct b; reflexivity. }
    rewrite (run_rd _ _ _ p Hp'). rewrite increase_credit.
    + unfold with_participation. fold b. destruct b; reflexivity.
    + destruct b; exact Hpb.
    + intros q Hq. apply Hbal. destruct b; exact Hq.
  - intros i q Hi Hq. rewrite <- (part3_spec flags Hsub). apply H3; [apply Hai; exact Hi|exact Hq].
  - intros i Hi. apply H4. rewrite Hai. exact Hi.
Qed.
End WithEnv.
