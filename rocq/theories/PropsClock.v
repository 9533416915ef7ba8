(** * Property theorems: slot clock, slot stream, fork schedule, signature domains *)
From Verif Require Import Base BaseLemmas Types Ctx Presets Env Helpers Clock SpecCommon SpecHelpers SpecClock HelperProofs HelperProofs2 Toy.

(** ** C63: slot clock *)
(** No slot exactly before genesis; slot [k] exactly from its start to the start of the next one (slots count up to 2^64). *)
Theorem C63_slot_interval : forall (genesis seconds per_epoch now : N), 0 < seconds ->
  let c := clock_new genesis seconds per_epoch in
  (slot_at_time c now = Ok None <-> now < slot_start genesis seconds 0)
  /\ (forall k, slot_at_time c now = Ok (Some k) <-> in_slot genesis seconds k now /\ k < 2 ^ 64)
  /\ (slot_at_time c now = Panic <-> slot_start genesis seconds (2 ^ 64) <= now)
  /\ (before_genesis c now = true <-> now < slot_start genesis seconds 0).
Proof.
  intros g sec pe now Hs c. unfold slot_at_time, convert_timestamp_nanos_to_slot, before_genesis, in_slot, slot_start, c, clock_new, secs_as_nanos, NANOS, csub.
  cbn [ck_genesis_time ck_seconds_per_slot]. rewrite N.mul_0_l, N.add_0_r. unfold udiv.
  replace (sec * 1000000000 =? 0) with false by (symmetry; apply N.eqb_neq; lia).
  set (G := g * 1000000000). set (S := sec * 1000000000).
  assert (Hst : forall k, (g + k * sec) * 1000000000 = G + k * S) by (intros; unfold G, S; ring).
  assert (HS : S <> 0) by (unfold S; lia).
  rewrite !Hst. setoid_rewrite Hst. clearbody G S. clear Hst.
  destruct (N.leb_spec G now) as [Hle|Hlt].
  - cbn [rbind]. unfold u128_to_u64. pose proof (N.div_mod (now - G) S HS) as Hdm. pose proof (N.mod_lt (now - G) S HS) as Hm.
    set (q := (now - G) / S) in *. set (r := (now - G) mod S) in *. clearbody q r.
    assert (Hk : forall k, (G + k * S <= now /\ now < G + (k + 1) * S) <-> k = q).
    { intros k. split; [intros [A B]|intros ->; rewrite N.mul_add_distr_r; lia].
      destruct (N.lt_trichotomy k q) as [L|[->|L]]; [|reflexivity|].
      - exfalso. assert ((k + 1) * S <= q * S) by (apply N.mul_le_mono_r; lia). lia.
      - exfalso. assert ((q + 1) * S <= k * S) by (apply N.mul_le_mono_r; lia). lia. }
    change U64 with (2 ^ 64). split; [|split; [|split]].
    + split; [|lia]. destruct (q <? 2 ^ 64); discriminate.
    + intros k. rewrite Hk. destruct (N.ltb_spec q (2 ^ 64)); cbn [rbind].
      * split; [intros [= <-]; auto|intros [-> _]; reflexivity].
      * split; [discriminate|intros [-> ?]; lia].
    + destruct (N.ltb_spec q (2 ^ 64)); cbn [rbind]; split; try discriminate; intros; try reflexivity.
      * exfalso. assert ((q + 1) * S <= 2 ^ 64 * S) by (apply N.mul_le_mono_r; lia). lia.
      * assert (2 ^ 64 * S <= q * S) by (apply N.mul_le_mono_r; lia). lia.
    + split; [intros Hb; apply N.ltb_lt in Hb; exact Hb|lia].
  - split; [split; auto|]. split; [intros k; split; [discriminate|intros [[? _] _]; lia]|]. split; [split; [discriminate|intros; lia]|].
    rewrite N.ltb_lt. reflexivity.
Qed.
Lemma slot_interval g sec pe now k : 0 < sec -> slot_at_time (clock_new g sec pe) now = Ok (Some k) <-> in_slot g sec k now /\ k < 2 ^ 64.
Proof. intros H. exact (proj1 (proj2 (C63_slot_interval g sec pe now H)) k). Qed.

(** Waiting for the returned time ends exactly when the next slot starts (before genesis: slot 0). *)
Theorem C63_next_slot : forall (chk : bool) (genesis seconds per_epoch now : N),
  0 < seconds -> seconds < 2 ^ 34 -> genesis < 2 ^ 34 -> now < 2 ^ 64 ->
  exists d, duration_until_next_slot chk (clock_new genesis seconds per_epoch) now = Ok d /\ 0 < d
    /\ ((now < slot_start genesis seconds 0 /\ now + d = slot_start genesis seconds 0)
        \/ exists k, in_slot genesis seconds k now /\ now + d = slot_start genesis seconds (k + 1)).
Proof.
  intros chk g sec pe now Hs Hs2 Hg Hn. unfold duration_until_next_slot.
  destruct (C63_slot_interval g sec pe now Hs) as (H1 & H2 & H3 & H4). destruct (before_genesis (clock_new g sec pe) now) eqn:Hb.
  - apply proj1 in H4. specialize (H4 eq_refl). unfold slot_start in H4. unfold clock_new, sub128, secs_as_nanos, NANOS. cbn [ck_genesis_time ck_seconds_per_slot].
    rewrite (proj2 (N.leb_le _ _)) by lia. cbn [rbind]. unfold u128_to_u64. rewrite (proj2 (N.ltb_lt _ _)) by (unfold U64; lia).
    eexists. split; [reflexivity|]. split; [lia|]. left. unfold slot_start. lia.
  - destruct (slot_at_time (clock_new g sec pe) now) as [[k|]| | |] eqn:Hk.
    + pose proof (proj1 (H2 k) eq_refl) as [Hin Hk64]. cbn [rbind expect].
      assert (Hkn : k * 1000000000 <= now).
      { destruct Hin as [Hin _]. unfold slot_start in Hin. assert (k * 1 <= k * sec) by (apply N.mul_le_mono_l; lia). lia. }
      assert (Hkb : k < 2 ^ 35) by (clear - Hkn Hn; lia).
      unfold uadd. rewrite (proj2 (N.ltb_lt _ _)) by (unfold U64; lia). cbn [rbind].
      unfold slot_to_nanos, mul128, add128, clock_new, secs_as_nanos, NANOS. cbn [ck_genesis_time ck_seconds_per_slot].
      assert (Hp : (k + 1) * sec <= 2 ^ 35 * 2 ^ 34) by (apply N.mul_le_mono; lia).
      assert (He : (k + 1) * (sec * 1000000000) = (k + 1) * sec * 1000000000) by ring. rewrite He. unfold in_slot, slot_start in Hin. clear He.
      assert (Hpk : (k + 1) * sec = k * sec + sec) by ring. remember ((k + 1) * sec) as p eqn:Ep. remember (k * sec) as q eqn:Eq.
      rewrite (proj2 (N.ltb_lt _ _)) by (unfold U128; lia). cbn [rbind]. rewrite (proj2 (N.ltb_lt _ _)) by (unfold U128; lia). cbn [rbind]. unfold sub128.
      rewrite (proj2 (N.leb_le _ _)) by lia. cbn [rbind]. unfold u128_to_u64. rewrite (proj2 (N.ltb_lt _ _)) by (unfold U64; lia).
      eexists. split; [reflexivity|]. split; [lia|]. right. exists k. unfold in_slot, slot_start. rewrite <- Ep, <- Eq. clear - Hin Hpk. lia.
    + exfalso. apply proj1 in H1. specialize (H1 eq_refl). apply H4 in H1. congruence.
    + unfold slot_at_time, convert_timestamp_nanos_to_slot, u128_to_u64, udiv in Hk. destruct (csub _ _); [|discriminate].
      destruct (_ =? 0); [discriminate|]. cbn [rbind] in Hk. destruct (_ <? _); discriminate.
    + exfalso. apply proj1 in H3. specialize (H3 eq_refl). unfold slot_start in H3. assert (2 ^ 64 * 1 <= 2 ^ 64 * sec) by (apply N.mul_le_mono_l; lia). lia.
    + unfold slot_at_time, convert_timestamp_nanos_to_slot, u128_to_u64, udiv in Hk. destruct (csub _ _); [|discriminate].
      destruct (_ =? 0); [discriminate|]. cbn [rbind] in Hk. destruct (_ <? _); discriminate.
Qed.
(** The wait for a given slot, zero when it has started. *)
Theorem C63_until_slot : forall (chk : bool) (genesis seconds per_epoch k now : N),
  slot_start genesis seconds k < 2 ^ 64 ->
  duration_until_slot chk (clock_new genesis seconds per_epoch) k now = Ok (slot_start genesis seconds k - now).
Proof.
  intros chk g sec pe k now H. unfold duration_until_slot, slot_to_nanos, mul128, add128, clock_new, secs_as_nanos, NANOS, slot_start in *. cbn [ck_genesis_time ck_seconds_per_slot].
  replace (k * (sec * 1000000000)) with (k * sec * 1000000000) by ring. set (p := k * sec) in *. clearbody p.
  rewrite (proj2 (N.ltb_lt _ _)) by (unfold U128; lia). cbn [rbind]. rewrite (proj2 (N.ltb_lt _ _)) by (unfold U128; lia). cbn [rbind]. unfold csub.
  destruct (N.leb_spec now (p * 1000000000 + g * 1000000000)); [|f_equal; lia].
  unfold u128_to_u64. rewrite (proj2 (N.ltb_lt _ _)) by (unfold U64; lia). f_equal. lia.
Qed.
(** The timestamp of a slot is the second at which it starts; reading it back gives the slot, at both precisions. *)
Theorem C63_timestamp : forall (chk : bool) (genesis seconds per_epoch k : N),
  0 < seconds -> seconds < 2 ^ 34 -> genesis < 2 ^ 34 -> k < 2 ^ 64 -> genesis + k * seconds < 2 ^ 64 ->
  exists t, timestamp_at_slot chk (clock_new genesis seconds per_epoch) k = Ok t
    /\ t * 1000000000 = slot_start genesis seconds k
    /\ convert_timestamp_to_slot t genesis seconds = Ok (Some k)
    /\ slot_at_time (clock_new genesis seconds per_epoch) (t * 1000000000) = Ok (Some k).
Proof.
  intros chk g sec pe k Hs Hs2 Hg Hk H. exists (g + k * sec).
  unfold timestamp_at_slot, convert_slot_to_timestamp, clock_new, secs_as_nanos, nanos_as_secs, NANOS, u128_to_u64. cbn [ck_genesis_time ck_seconds_per_slot].
  rewrite (proj2 (N.ltb_lt (sec * 1000000000) U64)) by (unfold U64; lia). cbn [rbind]. rewrite !N.div_mul by discriminate. unfold umul.
  rewrite (proj2 (N.ltb_lt (k * sec) U64)) by (unfold U64; lia). cbn [rbind]. rewrite (proj2 (N.ltb_lt (g * 1000000000) U64)) by (unfold U64; lia). cbn [rbind].
  rewrite N.div_mul by discriminate. unfold uadd. rewrite (proj2 (N.ltb_lt (k * sec + g) U64)) by (unfold U64; lia).
  split; [f_equal; lia|]. split; [reflexivity|]. split.
  - unfold convert_timestamp_to_slot, csub, udiv. rewrite (proj2 (N.leb_le _ _)) by lia. replace (sec =? 0) with false by (symmetry; apply N.eqb_neq; lia). cbn [rbind].
    replace (g + k * sec - g) with (k * sec) by lia. rewrite N.div_mul by lia. reflexivity.
  - apply (slot_interval g sec pe ((g + k * sec) * 1000000000) k Hs). split; [|exact Hk]. unfold in_slot, slot_start. rewrite N.mul_add_distr_r. lia.
Qed.
(** Second and nanosecond precision agree. *)
Theorem C63_precisions : forall (genesis seconds per_epoch t r : N), 0 < seconds -> t < 2 ^ 64 -> r < 1000000000 ->
  slot_at_time (clock_new genesis seconds per_epoch) (t * 1000000000 + r) = convert_timestamp_to_slot t genesis seconds.
Proof.
  intros g sec pe t r Hs Ht Hr. unfold slot_at_time, convert_timestamp_nanos_to_slot, convert_timestamp_to_slot, clock_new, secs_as_nanos, NANOS, csub. cbn [ck_genesis_time ck_seconds_per_slot].
  destruct (N.leb_spec g t) as [Hle|Hlt].
  - rewrite (proj2 (N.leb_le (g * 1000000000) _)) by lia. unfold udiv. replace (sec * 1000000000 =? 0) with false by (symmetry; apply N.eqb_neq; lia).
    replace (sec =? 0) with false by (symmetry; apply N.eqb_neq; lia). cbn [rbind].
    replace (t * 1000000000 + r - g * 1000000000) with (r + (t - g) * 1000000000) by lia. rewrite (N.mul_comm sec), <- N.div_div by lia.
    rewrite N.div_add by discriminate. rewrite (N.div_small r) by exact Hr. rewrite N.add_0_l. unfold u128_to_u64.
    assert ((t - g) / sec <= t - g) by (apply N.div_le_upper_bound; [lia|]; assert (1 * (t - g) <= sec * (t - g)) by (apply N.mul_le_mono_r; lia); lia).
    rewrite (proj2 (N.ltb_lt _ _)) by (unfold U64; lia). reflexivity.
  - destruct (N.leb_spec (g * 1000000000) (t * 1000000000 + r)); [lia|reflexivity].
Qed.
(** Epochs are consecutive groups of slots. *)
Theorem C63_epoch : forall (genesis seconds per_epoch now k e : N), 0 < seconds -> 0 < per_epoch -> in_slot genesis seconds k now -> k < 2 ^ 64 ->
  current_epoch (clock_new genesis seconds per_epoch) now = Ok (Some e) <-> e * per_epoch <= k /\ k < (e + 1) * per_epoch.
Proof.
  intros g sec pe now k e Hs Hp Hin Hk. unfold current_epoch. rewrite (proj2 (slot_interval g sec pe now k Hs)) by auto. cbn [rbind].
  unfold epoch_for, clock_new, udiv. cbn [ck_slots_per_epoch]. replace (pe =? 0) with false by (symmetry; apply N.eqb_neq; lia). cbn [rbind].
  pose proof (N.div_mod k pe) as Hd. pose proof (N.mod_lt k pe) as Hm. set (q := k / pe) in *. set (r := k mod pe) in *. clearbody q r.
  split.
  - intros [= <-]. rewrite N.mul_add_distr_r. lia.
  - intros [A B]. do 2 f_equal. destruct (N.lt_trichotomy e q) as [L|[->|L]]; [|reflexivity|].
    + exfalso. assert ((e + 1) * pe <= q * pe) by (apply N.mul_le_mono_r; lia). lia.
    + exfalso. assert ((q + 1) * pe <= e * pe) by (apply N.mul_le_mono_r; lia). lia.
Qed.
(** mainnet: 12-second slots from 1606824023; half a second into slot 2 *)
Example C63_example :
  let c := clock_new 1606824023 12 32 in
  slot_at_time c (1606824047 * 1000000000 + 500000000) = Ok (Some 2) /\ slot_at_time c (1606824022 * 1000000000) = Ok None
  /\ duration_until_next_slot true c (1606824047 * 1000000000 + 500000000) = Ok 11500000000
  /\ duration_until_next_slot true c (1606824022 * 1000000000) = Ok 1000000000
  /\ timestamp_at_slot true c 8500000 = Ok 1708824023 /\ current_epoch c (1708824023 * 1000000000) = Ok (Some 265625).
Proof. vm_compute. repeat split. Qed.

(** ** C78: the slot stream *)
(** Polls in the order of time, starting after [t]. *)
Fixpoint polls_ordered (t : N) (ps : list Poll) : Prop :=
  match ps with
  | [] => True
  | p :: rest => t <= pl_now p /\ pl_now p <= pl_arm p /\ pl_arm p <= pl_read p /\ polls_ordered (pl_read p) rest
  end.
(** no slot boundary falls between arming the timer and reading the slot *)
Definition same_slot (genesis seconds : N) (p : Poll) : Prop :=
  forall k, in_slot genesis seconds k (pl_arm p) <-> in_slot genesis seconds k (pl_read p).
Fixpoint strictly_increasing (last : option N) (l : list (option N)) : Prop :=
  match l with
  | [] => True
  | o :: rest => match o with None => False | Some k => match last with Some j => j < k | None => True end /\ strictly_increasing (Some k) rest end
  end.
Fixpoint never_decreasing (last : option N) (l : list (option N)) : Prop :=
  match l with
  | [] => True
  | o :: rest => match o with None => False | Some k => match last with Some j => j <= k | None => True end /\ never_decreasing (Some k) rest end
  end.

Lemma in_slot_fun g sec k j t : in_slot g sec k t -> in_slot g sec j t -> k = j.
Proof.
  unfold in_slot, slot_start. intros [A B] [C D]. destruct (N.lt_trichotomy k j) as [L|[->|L]]; [|reflexivity|]; exfalso.
  - assert ((k + 1) * sec <= j * sec) by (apply N.mul_le_mono_r; lia). lia.
  - assert ((j + 1) * sec <= k * sec) by (apply N.mul_le_mono_r; lia). lia.
Qed.
Lemma in_slot_mono g sec k j t u : in_slot g sec k t -> in_slot g sec j u -> t <= u -> k <= j.
Proof.
  unfold in_slot, slot_start. intros [A B] [C D] H. destruct (N.le_gt_cases k j) as [L|L]; [exact L|]. exfalso.
  assert ((j + 1) * sec <= k * sec) by (apply N.mul_le_mono_r; lia). lia.
Qed.
Lemma slot_exists g sec pe t : 0 < sec -> slot_start g sec 0 <= t -> t < 2 ^ 64 ->
  exists k, in_slot g sec k t /\ slot_at_time (clock_new g sec pe) t = Ok (Some k) /\ k < 2 ^ 35.
Proof.
  intros Hs Hg Ht. destruct (C63_slot_interval g sec pe t Hs) as (H1 & H2 & H3 & H4).
  destruct (slot_at_time (clock_new g sec pe) t) as [[k|]| | |] eqn:Hk.
  - pose proof (proj1 (H2 k) eq_refl) as [Hin _]. exists k. split; [exact Hin|]. split; [reflexivity|].
    destruct Hin as [Hin _]. unfold slot_start in Hin. assert (k * 1 <= k * sec) by (apply N.mul_le_mono_l; lia). lia.
  - exfalso. apply proj1 in H1. specialize (H1 eq_refl). lia.
  - unfold slot_at_time, convert_timestamp_nanos_to_slot, u128_to_u64, udiv in Hk. destruct (csub _ _); [|discriminate].
    destruct (_ =? 0); [discriminate|]. cbn [rbind] in Hk. destruct (_ <? _); discriminate.
  - exfalso. apply proj1 in H3. specialize (H3 eq_refl). unfold slot_start in H3. assert (2 ^ 64 * 1 <= 2 ^ 64 * sec) by (apply N.mul_le_mono_l; lia). lia.
  - unfold slot_at_time, convert_timestamp_nanos_to_slot, u128_to_u64, udiv in Hk. destruct (csub _ _); [|discriminate].
    destruct (_ =? 0); [discriminate|]. cbn [rbind] in Hk. destruct (_ <? _); discriminate.
Qed.
(** the invariant between polls: the timer is set to the start of the slot after [k], [last] was yielded last *)
Lemma poll_all_increasing chk g sec pe : 0 < sec -> sec < 2 ^ 34 -> g < 2 ^ 34 ->
  forall ps last deadline t, polls_ordered t ps -> (forall p, In p ps -> pl_read p < 2 ^ 64 /\ same_slot g sec p) ->
    slot_start g sec 0 <= deadline ->
    (forall j, last = Some j -> deadline = slot_start g sec (j + 1)) ->
    exists l, poll_all chk (clock_new g sec pe) ps (mkStream deadline None) = Ok l /\ strictly_increasing last l.
Proof.
  intros Hs Hs2 Hg ps. induction ps as [|p ps IH]; intros last deadline t Ho Hp Hd Hl; [exists []; split; [reflexivity|exact I]|].
  destruct Ho as (O1 & O2 & O3 & O4). destruct (Hp p (or_introl eq_refl)) as [Hb Hsame].
  cbn [poll_all poll_next ss_first ss_deadline]. destruct (N.leb_spec deadline (pl_now p)) as [Hfire|Hwait].
  - destruct (C63_next_slot chk g sec pe (pl_arm p) Hs Hs2 Hg ltac:(lia)) as (d & -> & _ & Hcase). cbn [rbind].
    destruct Hcase as [[Hbefore _]|(k & Hin & Hat)]; [exfalso; lia|].
    assert (Hr : in_slot g sec k (pl_read p)) by (apply Hsame; exact Hin).
    assert (Hk64 : k < 2 ^ 64).
    { destruct Hr as [Hr _]. unfold slot_start in Hr. assert (k * 1 <= k * sec) by (apply N.mul_le_mono_l; lia). lia. }
    rewrite (proj2 (slot_interval g sec pe (pl_read p) k Hs)) by auto. cbn [rbind fst snd].
    destruct (IH (Some k) (pl_arm p + d) (pl_read p) O4) as (l & Hl1 & Hl2); [intros q Hq; apply Hp; right; exact Hq|rewrite Hat; unfold slot_start; lia|intros j [= <-]; exact Hat|].
    rewrite Hl1. cbn [rbind]. exists (Some k :: l). split; [reflexivity|]. split; [|exact Hl2]. destruct last as [j|]; [|exact I].
    specialize (Hl j eq_refl). destruct (N.le_gt_cases k j) as [L|L]; [exfalso|exact L].
    destruct Hin as [_ Hin]. unfold slot_start in *. assert ((k + 1) * sec <= (j + 1) * sec) by (apply N.mul_le_mono_r; lia). lia.
  - cbn [rbind fst snd]. destruct (IH last deadline (pl_read p) O4) as (l & Hl1 & Hl2); [intros q Hq; apply Hp; right; exact Hq|exact Hd|exact Hl|].
    rewrite Hl1. cbn [rbind]. exists l. split; [reflexivity|exact Hl2].
Qed.
(** For every schedule of polls: the stream never ends and never yields a slot twice, if no poll straddles a slot boundary between its two
    readings of the clock.  Without that condition see the two theorems below. *)
Theorem C78_strict_partial : forall (chk : bool) (genesis seconds per_epoch : N) (start : Poll) (ps : list Poll),
  0 < seconds -> seconds < 2 ^ 34 -> genesis < 2 ^ 34 -> polls_ordered 0 (start :: ps) ->
  (forall p, In p (start :: ps) -> pl_read p < 2 ^ 64 /\ same_slot genesis seconds p) ->
  (pl_read start < slot_start genesis seconds 0 \/ slot_start genesis seconds 0 <= pl_arm start) ->
  exists st l, into_stream chk (clock_new genesis seconds per_epoch) start = Ok st
    /\ poll_all chk (clock_new genesis seconds per_epoch) ps st = Ok l /\ strictly_increasing None l.
Proof.
  intros chk g sec pe start ps Hs Hs2 Hg Ho Hp Hside. destruct Ho as (O1 & O2 & O3 & O4). destruct (Hp start (or_introl eq_refl)) as [Hb Hsame].
  assert (Hps : forall p, In p ps -> pl_read p < 2 ^ 64 /\ same_slot g sec p) by (intros p Hin; apply Hp; right; exact Hin).
  unfold into_stream. destruct (C63_next_slot chk g sec pe (pl_arm start) Hs Hs2 Hg ltac:(lia)) as (d & -> & _ & Hcase). cbn [rbind].
  destruct Hcase as [[Hbefore Hat]|(k & Hin & Hat)].
  - destruct Hside as [Hside|Hside]; [|lia]. rewrite (proj2 (proj1 (C63_slot_interval g sec pe (pl_read start) Hs))) by exact Hside. cbn [rbind].
    destruct (poll_all_increasing chk g sec pe Hs Hs2 Hg ps None (pl_arm start + d) (pl_read start) O4 Hps) as (l & H1 & H2); [lia|discriminate|].
    exists (mkStream (pl_arm start + d) None), l. auto.
  - assert (Hr : in_slot g sec k (pl_read start)) by (apply Hsame; exact Hin).
    assert (Hk64 : k < 2 ^ 64).
    { destruct Hr as [Hr _]. unfold slot_start in Hr. assert (k * 1 <= k * sec) by (apply N.mul_le_mono_l; lia). lia. }
    rewrite (proj2 (slot_interval g sec pe (pl_read start) k Hs)) by auto. cbn [rbind].
    destruct ps as [|p ps]; [exists (mkStream (pl_arm start + d) (Some k)), []; split; [reflexivity|]; split; [reflexivity|exact I]|].
    destruct O4 as (P1 & P2 & P3 & P4).
    destruct (poll_all_increasing chk g sec pe Hs Hs2 Hg ps (Some k) (pl_arm start + d) (pl_read p) P4) as (l & H1 & H2);
      [intros q Hq; apply Hps; right; exact Hq|rewrite Hat; unfold slot_start; lia|intros j [= <-]; exact Hat|].
    exists (mkStream (pl_arm start + d) (Some k)), (Some k :: l). split; [reflexivity|]. split; [|split; [exact I|exact H2]].
    cbn [poll_all poll_next ss_first ss_deadline rbind fst snd]. rewrite H1. reflexivity.
Qed.
(** For every schedule whatsoever after genesis: the stream never ends and the slots never decrease. *)
Theorem C78_ordered : forall (chk : bool) (genesis seconds per_epoch : N) (start : Poll) (ps : list Poll),
  0 < seconds -> seconds < 2 ^ 34 -> genesis < 2 ^ 34 -> polls_ordered 0 (start :: ps) -> slot_start genesis seconds 0 <= pl_arm start ->
  (forall p, In p (start :: ps) -> pl_read p < 2 ^ 64) ->
  exists st l, into_stream chk (clock_new genesis seconds per_epoch) start = Ok st
    /\ poll_all chk (clock_new genesis seconds per_epoch) ps st = Ok l /\ never_decreasing None l.
Proof.
  intros chk g sec pe start ps Hs Hs2 Hg Ho Hgen Hp. destruct Ho as (O1 & O2 & O3 & O4).
  assert (Hloop : forall ps last deadline t, polls_ordered t ps -> (forall p, In p ps -> pl_read p < 2 ^ 64) -> slot_start g sec 0 <= t ->
    (forall j, last = Some j -> exists u, in_slot g sec j u /\ u <= t) ->
    exists l, poll_all chk (clock_new g sec pe) ps (mkStream deadline None) = Ok l /\ never_decreasing last l).
  { clear - Hs Hs2 Hg. intros ps. induction ps as [|p ps IH]; intros last deadline t Ho Hp Hgen Hl; [exists []; split; [reflexivity|exact I]|].
    destruct Ho as (O1 & O2 & O3 & O4). pose proof (Hp p (or_introl eq_refl)) as Hb.
    cbn [poll_all poll_next ss_first ss_deadline]. destruct (N.leb_spec deadline (pl_now p)) as [Hfire|Hwait].
    - destruct (C63_next_slot chk g sec pe (pl_arm p) Hs Hs2 Hg ltac:(lia)) as (d & -> & _ & _). cbn [rbind].
      destruct (slot_exists g sec pe (pl_read p) Hs ltac:(lia) Hb) as (k & Hin & -> & _). cbn [rbind fst snd].
      destruct (IH (Some k) (pl_arm p + d) (pl_read p) O4) as (l & H1 & H2); [intros q Hq; apply Hp; right; exact Hq|lia|intros j [= <-]; exists (pl_read p); split; [exact Hin|lia]|].
      rewrite H1. cbn [rbind]. exists (Some k :: l). split; [reflexivity|]. split; [|exact H2]. destruct last as [j|]; [|exact I].
      destruct (Hl j eq_refl) as (u & Hu & Hle). apply (in_slot_mono g sec j k u (pl_read p) Hu Hin). lia.
    - cbn [rbind fst snd]. destruct (IH last deadline (pl_read p) O4) as (l & H1 & H2); [intros q Hq; apply Hp; right; exact Hq|lia| |].
      + intros j Hj. destruct (Hl j Hj) as (u & Hu & Hle). exists u. split; [exact Hu|lia].
      + rewrite H1. cbn [rbind]. exists l. split; [reflexivity|exact H2]. }
  pose proof (Hp start (or_introl eq_refl)) as Hb. unfold into_stream.
  destruct (C63_next_slot chk g sec pe (pl_arm start) Hs Hs2 Hg ltac:(lia)) as (d & -> & _ & _). cbn [rbind].
  destruct (slot_exists g sec pe (pl_read start) Hs ltac:(lia) Hb) as (k & Hin & -> & _). cbn [rbind].
  destruct ps as [|p ps]; [exists (mkStream (pl_arm start + d) (Some k)), []; split; [reflexivity|]; split; [reflexivity|exact I]|].
  destruct O4 as (P1 & P2 & P3 & P4).
  destruct (Hloop ps (Some k) (pl_arm start + d) (pl_read p) P4) as (l & H1 & H2);
    [intros q Hq; apply Hp; right; right; exact Hq|lia|intros j [= <-]; exists (pl_read start); split; [exact Hin|lia]|].
  exists (mkStream (pl_arm start + d) (Some k)), (Some k :: l). split; [reflexivity|]. split; [|split; [exact I|exact H2]].
  cbn [poll_all poll_next ss_first ss_deadline rbind fst snd]. rewrite H1. reflexivity.
Qed.
(** A poll that straddles a slot boundary makes the stream yield the same slot twice. *)
Definition straddle_late : list Poll := [mkPoll 5 5 5; mkPoll 12000000000 23999999999 24000000001; mkPoll 24000000002 24000000002 24000000003].
Theorem C78_duplicate_refuted : exists (genesis seconds : N) (start : Poll) (ps : list Poll) (st : SlotStream),
  0 < seconds /\ polls_ordered 0 (start :: ps) /\ into_stream true (clock_new genesis seconds 32) start = Ok st
  /\ poll_all true (clock_new genesis seconds 32) ps st = Ok [Some 0; Some 2; Some 2].
Proof. exists 0, 12, (mkPoll 4 4 4), straddle_late, (mkStream 12000000000 (Some 0)). split; [reflexivity|]. split; [cbn; lia|]. split; vm_compute; reflexivity. Qed.
(** a schedule meeting the hypotheses of [C78_strict_partial], starting before genesis *)
Definition calm : list Poll := [mkPoll 1000000000 1000000000 1000000000; mkPoll 2000000000 2000000001 2000000002; mkPoll 3000000000 3000000000 3000000000; mkPoll 20000000000 20000000001 20000000002].
Example C78_example : polls_ordered 0 (mkPoll 1 1 1 :: calm)
  /\ (let! st := into_stream true (clock_new 2 12 32) (mkPoll 1 1 1) in poll_all true (clock_new 2 12 32) calm st) = Ok [Some 0; Some 1]
  /\ same_slot 2 12 (mkPoll 2000000000 2000000001 2000000002).
Proof.
  split; [cbn; lia|]. split; [vm_compute; reflexivity|]. intros k. unfold in_slot, slot_start. cbn [pl_arm pl_read].
  destruct (N.eq_dec k 0) as [->|]; [lia|]. assert (1 * 12 <= k * 12) by (apply N.mul_le_mono_r; lia). lia.
Qed.

(** ** C58: fork schedule *)
(** The fork of a slot is the latest one whose epoch has started. *)
Theorem C58_latest_reached : forall (C : Ctx) (sl : N) (f : Fork), 0 < SLOTS_PER_EPOCH C ->
  fork_for C sl = Ok f <-> reached C f sl /\ forall g, fork_num f < fork_num g -> ~ reached C g sl.
Proof.
  intros C sl f Hs. unfold fork_for, udiv, reached. replace (SLOTS_PER_EPOCH C =? 0) with false by (symmetry; apply N.eqb_neq; lia). cbn [rbind].
  assert (Hd : forall a, a * SLOTS_PER_EPOCH C <= sl <-> a <= sl / SLOTS_PER_EPOCH C).
  { intros a. split; intros H; [apply N.div_le_lower_bound; [lia|rewrite N.mul_comm; exact H]|].
    pose proof (N.mul_div_le sl (SLOTS_PER_EPOCH C)). assert (a * SLOTS_PER_EPOCH C <= sl / SLOTS_PER_EPOCH C * SLOTS_PER_EPOCH C) by (apply N.mul_le_mono_r; exact H). lia. }
  set (e := sl / SLOTS_PER_EPOCH C) in *.
  set (x := if ELECTRA_FORK_EPOCH C <=? e then Electra else _).
  assert (Hx : (activation C x * SLOTS_PER_EPOCH C <= sl /\ forall g, fork_num x < fork_num g -> ~ activation C g * SLOTS_PER_EPOCH C <= sl)).
  { subst x. destruct (N.leb_spec (ELECTRA_FORK_EPOCH C) e); [split; [apply Hd; assumption|intros []; cbn [fork_num]; lia]|].
    destruct (N.leb_spec (DENEB_FORK_EPOCH C) e); [split; [apply Hd; assumption|intros []; cbn [fork_num]; intros ?; rewrite Hd; cbn [activation]; lia]|].
    destruct (N.leb_spec (CAPELLA_FORK_EPOCH C) e); [split; [apply Hd; assumption|intros []; cbn [fork_num]; intros ?; rewrite Hd; cbn [activation]; lia]|].
    destruct (N.leb_spec (BELLATRIX_FORK_EPOCH C) e); [split; [apply Hd; assumption|intros []; cbn [fork_num]; intros ?; rewrite Hd; cbn [activation]; lia]|].
    destruct (N.leb_spec (ALTAIR_FORK_EPOCH C) e); [split; [apply Hd; assumption|intros []; cbn [fork_num]; intros ?; rewrite Hd; cbn [activation]; lia]|].
    split; [cbn [activation]; lia|intros []; cbn [fork_num]; intros ?; rewrite Hd; cbn [activation]; lia]. }
  clearbody x. split; [intros [= <-]; exact Hx|]. intros [H1 H2]. f_equal. destruct Hx as [H3 H4].
  destruct (N.lt_trichotomy (fork_num x) (fork_num f)) as [L|[L|L]]; [exfalso; exact (H4 f L H1)| |exfalso; exact (H2 x L H3)].
  destruct x, f; cbn [fork_num] in L; congruence.
Qed.
Theorem C58_monotone : forall (C : Ctx) (a b : N) (f g : Fork), 0 < SLOTS_PER_EPOCH C -> a <= b ->
  fork_for C a = Ok f -> fork_for C b = Ok g -> fork_num f <= fork_num g.
Proof.
  intros C a b f g Hs Hab Hf Hg. apply C58_latest_reached in Hf; [|exact Hs]. apply C58_latest_reached in Hg; [|exact Hs].
  destruct (N.le_gt_cases (fork_num f) (fork_num g)) as [L|L]; [exact L|exfalso]. apply (proj2 Hg f L). destruct Hf as [Hf _]. unfold reached in *. lia.
Qed.
(** With ordered epochs the fork is at least [f] exactly from [f]'s epoch on. *)
Theorem C58_boundaries : forall (C : Ctx) (sl : N) (f g : Fork), 0 < SLOTS_PER_EPOCH C -> ordered_schedule C ->
  fork_for C sl = Ok g -> (fork_num f <= fork_num g <-> activation C f * SLOTS_PER_EPOCH C <= sl).
Proof.
  intros C sl f g Hs (O1 & O2 & O3 & O4) Hg. apply C58_latest_reached in Hg; [|exact Hs]. destruct Hg as [H1 H2]. unfold reached in *. split.
  - intros Hle. assert (activation C f <= activation C g) by (destruct f, g; cbn [fork_num activation] in *; lia).
    assert (activation C f * SLOTS_PER_EPOCH C <= activation C g * SLOTS_PER_EPOCH C) by (apply N.mul_le_mono_r; assumption). lia.
  - intros Hr. destruct (N.le_gt_cases (fork_num f) (fork_num g)) as [L|L]; [exact L|exfalso; exact (H2 f L Hr)].
Qed.
Definition all_forks : list Fork := [Phase0; Altair; Bellatrix; Capella; Deneb; Electra].
Definition networks : list Ctx := [ctx_mainnet; ctx_minimal; ctx_goerli; ctx_sepolia; ctx_holesky; ctx_hoodi].
(** On the shipped configurations versions identify fork and configuration: all 36 are different. *)
Theorem C58_versions_injective : forall (C D : Ctx) (f g : Fork), In C networks -> In D networks ->
  fork_version_for C f = fork_version_for D g -> C = D /\ f = g.
Proof.
  intros C D f g HC HD H. cbn [networks In] in HC, HD.
  destruct HC as [<-|[<-|[<-|[<-|[<-|[<-|[]]]]]]]; destruct HD as [<-|[<-|[<-|[<-|[<-|[<-|[]]]]]]]; destruct f, g; vm_compute in H;
    try discriminate H; split; reflexivity.
Qed.
Theorem C58_networks_ordered : forall C, In C networks -> ordered_schedule C /\ 0 < SLOTS_PER_EPOCH C.
Proof.
  intros C HC. cbn [networks In] in HC. destruct HC as [<-|[<-|[<-|[<-|[<-|[<-|[]]]]]]]; unfold ordered_schedule; repeat split; vm_compute; congruence.
Qed.
Example C58_example : fork_for ctx_mainnet (74240 * 32 - 1) = Ok Phase0 /\ fork_for ctx_mainnet (74240 * 32) = Ok Altair /\ fork_for ctx_mainnet (269568 * 32) = Ok Deneb
  /\ fork_for ctx_holesky 0 = Ok Bellatrix.
Proof. vm_compute. repeat split. Qed.

(** ** C59: signature domains *)
Theorem C59_layout : forall (E : Env) (d : DomainType) (v : option bytes) (g : option Root) (x : bytes),
  compute_domain E d v g = Ok x <->
  exists r, htr E (OForkData (match v with Some v => v | None => GENESIS_FORK_VERSION E end) (match g with Some g => g | None => repeat 0 32 end)) = Some r
    /\ 28 <= lenN r /\ x = type_bytes d ++ firstn 28 r.
Proof.
  intros E d v g x. assert (Ht : type_bytes d = domain_bytes d) by (destruct d; reflexivity). rewrite Ht.
  pose proof (compute_domain_ok E d (match v with Some v => v | None => GENESIS_FORK_VERSION E end) (match g with Some g => g | None => repeat 0 32 end) x) as H.
  unfold is_domain in H. rewrite <- H. destruct v, g; reflexivity.
Qed.
Theorem C59_length : forall (E : Env) (d : DomainType) (v : option bytes) (g : option Root) (x : bytes),
  compute_domain E d v g = Ok x -> lenN x = 32.
Proof.
  intros E d v g x H. apply C59_layout in H as (r & _ & Hl & ->). unfold lenN in *. rewrite app_length, firstn_length_le by lia. destruct d; reflexivity.
Qed.
(** Equal domains have equal type bytes and equal fork-data-root prefixes; the type bytes identify the type (up to the two application types). *)
Theorem C59_separation : forall (E : Env) (d d' : DomainType) (v v' : bytes) (g g' : Root) (x : bytes),
  compute_domain E d (Some v) (Some g) = Ok x -> compute_domain E d' (Some v') (Some g') = Ok x ->
  (d = d' \/ (type_bytes d = [0; 0; 0; 1] /\ type_bytes d' = [0; 0; 0; 1]))
  /\ exists r r', htr E (OForkData v g) = Some r /\ htr E (OForkData v' g') = Some r' /\ firstn 28 r = firstn 28 r'.
Proof.
  intros E d d' v v' g g' x H H'. apply C59_layout in H as (r & Hr & _ & ->). apply C59_layout in H' as (r' & Hr' & _ & He). split.
  - destruct d, d'; cbn [type_bytes app] in He; try discriminate He; try (left; reflexivity); right; split; reflexivity.
  - exists r, r'. split; [exact Hr|]. split; [exact Hr'|]. destruct d, d'; cbn [type_bytes app] in He; injection He; try (intros; discriminate); auto; intros; congruence.
Qed.
(** When the hash tree root is collision free on signing data and fork data, one signing root belongs to one object root, domain type, fork
    version and chain: a signature never verifies in another context. *)
Theorem C59_signing_roots : forall (E : Env) (o o' : SszObj) (d d' : DomainType) (v v' : bytes) (g g' : Root) (x x' root r r' : bytes),
  (forall a b a' b' q, htr E (OSigningData a b) = Some q -> htr E (OSigningData a' b') = Some q -> a = a' /\ b = b') ->
  (forall a b a' b' q q', htr E (OForkData a b) = Some q -> htr E (OForkData a' b') = Some q' -> firstn 28 q = firstn 28 q' -> a = a' /\ b = b') ->
  compute_domain E d (Some v) (Some g) = Ok x -> compute_domain E d' (Some v') (Some g') = Ok x' ->
  htr E o = Some r -> htr E o' = Some r' ->
  compute_signing_root E o x = Ok root -> compute_signing_root E o' x' = Ok root ->
  r = r' /\ type_bytes d = type_bytes d' /\ v = v' /\ g = g'.
Proof.
  intros E o o' d d' v v' g g' x x' root r r' Hs Hf Hd Hd' Ho Ho' Hr Hr'. unfold compute_signing_root, htr_r in Hr, Hr'. rewrite Ho in Hr. rewrite Ho' in Hr'. cbn [ok_or rbind] in Hr, Hr'.
  destruct (htr E (OSigningData r x)) eqn:H1; [|discriminate]. destruct (htr E (OSigningData r' x')) eqn:H2; [|discriminate].
  cbn [ok_or] in Hr, Hr'. injection Hr as ->. injection Hr' as ->.
  destruct (Hs _ _ _ _ _ H1 H2) as [-> <-]. destruct (C59_separation E d d' v v' g g' x Hd Hd') as (Ht & q & q' & Hq & Hq' & Hp).
  destruct (Hf _ _ _ _ _ _ Hq Hq' Hp) as [-> ->]. split; [reflexivity|]. split; [|split; reflexivity]. destruct Ht as [-> |[-> ->]]; reflexivity.
Qed.
(** The previous fork version is used exactly for epochs before the fork epoch. *)
Theorem C59_version : forall (E : Env) (s : BeaconState) (d : DomainType) (e : N),
  (e < fk_epoch (fork s) -> get_domain E s d (Some e) = compute_domain E d (Some (fk_previous_version (fork s))) (Some (genesis_validators_root s)))
  /\ (fk_epoch (fork s) <= e -> get_domain E s d (Some e) = compute_domain E d (Some (fk_current_version (fork s))) (Some (genesis_validators_root s)))
  /\ (0 < SLOTS_PER_EPOCH E -> get_domain E s d None = get_domain E s d (Some (slot s / SLOTS_PER_EPOCH E))).
Proof.
  intros E s d e. unfold get_domain. cbn [rbind]. split; [|split].
  - intros H. rewrite (proj2 (N.ltb_lt _ _)) by exact H. reflexivity.
  - intros H. rewrite (proj2 (N.ltb_ge _ _)) by exact H. reflexivity.
  - intros H. unfold get_current_epoch, compute_epoch_at_slot, udiv. replace (SLOTS_PER_EPOCH E =? 0) with false by (symmetry; apply N.eqb_neq; lia). reflexivity.
Qed.
Theorem C59_digest : forall (E : Env) (v : bytes) (g : Root) (x : bytes),
  compute_fork_digest E v g = Ok x <-> exists r, htr E (OForkData v g) = Some r /\ 4 <= lenN r /\ x = firstn 4 r.
Proof.
  intros E v g x. unfold compute_fork_digest, compute_fork_data_root, htr_r, slice_to, firstN. destruct (htr E (OForkData v g)) as [r|]; cbn [ok_or rbind].
  - destruct (N.leb_spec 4 (lenN r)).
    + split; [intros [= <-]; eauto|]. intros (r' & [= <-] & _ & ->). reflexivity.
    + split; [discriminate|]. intros (r' & [= <-] & ? & _). lia.
  - split; [discriminate|]. intros (r' & ? & _). discriminate.
Qed.
Example C59_example : exists x y, compute_domain toy DRandao (Some [1; 0; 0; 0]) (Some zero32) = Ok x /\ compute_domain toy DRandao (Some [2; 0; 0; 0]) (Some zero32) = Ok y
  /\ firstn 4 x = [2; 0; 0; 0] /\ bytes_eqb x y = false.
Proof. eexists. eexists. split; [vm_compute; reflexivity|]. split; [vm_compute; reflexivity|]. split; vm_compute; reflexivity. Qed.

Print Assumptions C63_slot_interval.
Print Assumptions C63_next_slot.
Print Assumptions C63_until_slot.
Print Assumptions C63_timestamp.
Print Assumptions C63_precisions.
Print Assumptions C63_epoch.
Print Assumptions C78_strict_partial.
Print Assumptions C78_ordered.
Print Assumptions C78_duplicate_refuted.
Print Assumptions C58_latest_reached.
Print Assumptions C58_monotone.
Print Assumptions C58_boundaries.
Print Assumptions C58_versions_injective.
Print Assumptions C58_networks_ordered.
Print Assumptions C59_layout.
Print Assumptions C59_length.
Print Assumptions C59_separation.
Print Assumptions C59_signing_roots.
Print Assumptions C59_version.
Print Assumptions C59_digest.
