(** * Lemmas on signing and aggregation *)
From Coq Require Import Permutation.
From Verif Require Import Base BaseLemmas Types Ctx Env Helpers Signing SpecOps SpecHelpers SpecSigning.

Section S.
Variable B : Blst.
Hypothesis L : blst_laws B.

Lemma g1_times_succ k p : g1_times B (N.succ k) p = g1_add B p (g1_times B k p).
Proof. unfold g1_times. apply N.iter_succ. Qed.
Lemma g2_times_succ k p : g2_times B (N.succ k) p = g2_add B p (g2_times B k p).
Proof. unfold g2_times. apply N.iter_succ. Qed.
Lemma g1_times_0 p : g1_times B 0 p = g1_inf B. Proof. reflexivity. Qed.
Lemma g2_times_0 p : g2_times B 0 p = g2_inf B. Proof. reflexivity. Qed.

Lemma g1_times_add a b p : g1_times B (a + b) p = g1_add B (g1_times B a p) (g1_times B b p).
Proof.
  revert b. induction a as [|a IH] using N.peano_ind; intros b.
  - rewrite g1_times_0, (l_g1_comm B L), (l_g1_inf B L). reflexivity.
  - rewrite N.add_succ_l, !g1_times_succ, IH, (l_g1_assoc B L). reflexivity.
Qed.
Lemma g1_times_in k p : g1_in B p = true -> g1_in B (g1_times B k p) = true.
Proof.
  intros Hp. induction k as [|k IH] using N.peano_ind; [apply (l_in1_inf B L)|]. rewrite g1_times_succ. apply (l_in1_add B L); assumption.
Qed.
Lemma g2_times_in k p : g2_in B p = true -> g2_in B (g2_times B k p) = true.
Proof.
  intros Hp. induction k as [|k IH] using N.peano_ind; [apply (l_in2_inf B L)|]. rewrite g2_times_succ. apply (l_in2_add B L); assumption.
Qed.

(** the pairing moves scalars *)
Lemma pair_times k p h : pair_ B (g1_times B k p) h = pair_ B p (g2_times B k h).
Proof.
  induction k as [|k IH] using N.peano_ind.
  - rewrite g1_times_0, g2_times_0, (l_pair_inf1 B L), (l_pair_inf2 B L). reflexivity.
  - rewrite g1_times_succ, g2_times_succ, (l_pair_left B L), (l_pair_right B L), IH. reflexivity.
Qed.

(** sums *)
Lemma g1_fold t a : fold_left (g1_add B) t a = g1_add B a (fold_right (g1_add B) (g1_inf B) t).
Proof.
  revert a. induction t as [|x t IH]; intros a; cbn [fold_left fold_right]; [symmetry; apply (l_g1_inf B L)|].
  rewrite IH, <- (l_g1_assoc B L). reflexivity.
Qed.
Lemma g1_sum_r ps : g1_sum B ps = fold_right (g1_add B) (g1_inf B) ps.
Proof. destruct ps as [|p t]; [reflexivity|]. cbn [g1_sum fold_right]. apply g1_fold. Qed.
Lemma g2_fold t a : fold_left (g2_add B) t a = g2_add B a (fold_right (g2_add B) (g2_inf B) t).
Proof.
  revert a. induction t as [|x t IH]; intros a; cbn [fold_left fold_right]; [symmetry; apply (l_g2_inf B L)|].
  rewrite IH, <- (l_g2_assoc B L). reflexivity.
Qed.
Lemma g2_sum_r ps : g2_sum B ps = fold_right (g2_add B) (g2_inf B) ps.
Proof. destruct ps as [|p t]; [reflexivity|]. cbn [g2_sum fold_right]. apply g2_fold. Qed.
Lemma g1_sum_in ps : forallb (g1_in B) ps = true -> g1_in B (g1_sum B ps) = true.
Proof.
  rewrite g1_sum_r. induction ps as [|p t IH]; intros H; [apply (l_in1_inf B L)|]. cbn [forallb] in H. apply andb_true_iff in H as [Hp Ht].
  cbn [fold_right]. apply (l_in1_add B L); [exact Hp|exact (IH Ht)].
Qed.
Lemma g2_sum_in ps : forallb (g2_in B) ps = true -> g2_in B (g2_sum B ps) = true.
Proof.
  rewrite g2_sum_r. induction ps as [|p t IH]; intros H; [apply (l_in2_inf B L)|]. cbn [forallb] in H. apply andb_true_iff in H as [Hp Ht].
  cbn [fold_right]. apply (l_in2_add B L); [exact Hp|exact (IH Ht)].
Qed.
Lemma g1_sum_keys ks : g1_sum B (map (fun k => g1_times B k (g1_gen B)) ks) = g1_times B (sumN ks) (g1_gen B).
Proof.
  rewrite g1_sum_r. induction ks as [|k t IH]; [reflexivity|]. cbn [map fold_right]. rewrite IH, <- g1_times_add. reflexivity.
Qed.
Lemma g1_sum_perm a b : Permutation a b -> g1_sum B a = g1_sum B b.
Proof.
  rewrite !g1_sum_r. induction 1 as [|x a b _ IH|x y a|a b c _ IH1 _ IH2]; cbn [fold_right]; [reflexivity|rewrite IH; reflexivity| |congruence].
  rewrite !(l_g1_assoc B L), (l_g1_comm B L x y). reflexivity.
Qed.
Lemma g2_sum_perm a b : Permutation a b -> g2_sum B a = g2_sum B b.
Proof.
  rewrite !g2_sum_r. induction 1 as [|x a b _ IH|x y a|a b c _ IH1 _ IH2]; cbn [fold_right]; [reflexivity|rewrite IH; reflexivity| |congruence].
  rewrite !(l_g2_assoc B L), (l_g2_comm B L x y). reflexivity.
Qed.

(** keys and signatures *)
Lemma secret_ok_iff k : secret_ok B k = true <-> 0 < k < order B.
Proof. unfold secret_ok. lia. Qed.
Lemma public_key_ok k : public_key B k = Ok (g1_encode B (g1_times B k (g1_gen B))).
Proof. unfold public_key, public_key_bytes. rewrite (l_len1 B L). reflexivity. Qed.
Lemma sign_ok k m : sign B k m = Ok (g2_encode B (g2_times B k (hash_g2 B m))).
Proof. unfold sign, signature_bytes. rewrite (l_len2 B L). reflexivity. Qed.
Lemma key_point k : secret_ok B k = true -> validate B (g1_times B k (g1_gen B)) = true.
Proof.
  intros Hk. apply secret_ok_iff in Hk. unfold validate. rewrite (g1_times_in k _ (l_in1_gen B L)), andb_true_r. apply negb_true_iff.
  apply not_true_iff_false. rewrite (l_g1_is_inf B L), (l_gen_order B L). rewrite N.mod_small by lia. lia.
Qed.
Lemma key_validated k : secret_ok B k = true -> key_validate B (g1_encode B (g1_times B k (g1_gen B))) = Ok (g1_times B k (g1_gen B)).
Proof. intros Hk. unfold key_validate. rewrite (l_enc1 B L), (key_point k Hk). reflexivity. Qed.
Lemma key_validate_iff pk p : key_validate B pk = Ok p <-> g1_decode B pk = Some p /\ validate B p = true.
Proof.
  unfold key_validate. destruct (g1_decode B pk) as [q|]; [|split; [discriminate|intros [H _]; discriminate]].
  destruct (validate B q) eqn:E; split; intros H.
  - injection H as <-. auto.
  - destruct H as [H _]. injection H as <-. reflexivity.
  - discriminate.
  - destruct H as [H1 H2]. injection H1 as <-. congruence.
Qed.
Lemma sig_from_iff s p : sig_from_bytes B s = Ok p <-> g2_decode B s = Some p.
Proof. unfold sig_from_bytes. destruct (g2_decode B s); split; congruence. Qed.

(** one signature *)
Lemma verify_iff pk m s :
  verify_signature B pk m s = Ok tt <->
  exists p g, g1_decode B pk = Some p /\ validate B p = true /\ g2_decode B s = Some g /\ g2_in B g = true /\
              pair_ B p (hash_g2 B m) = pair_ B (g1_gen B) g.
Proof.
  unfold verify_signature. destruct (key_validate B pk) as [p| | |] eqn:Ek; cbn [rbind];
    try (split; [discriminate|]; intros (p & g & Hp & Hv & _); assert (X : key_validate B pk = Ok p) by (apply key_validate_iff; auto); congruence).
  apply key_validate_iff in Ek as [Ep Ev].
  destruct (sig_from_bytes B s) as [g| | |] eqn:Es; cbn [rbind];
    try (split; [discriminate|]; intros (p' & g & _ & _ & Hg & _); assert (X : sig_from_bytes B s = Ok g) by (apply sig_from_iff; auto); congruence).
  apply sig_from_iff in Es.
  assert (H : blst_aggregate_verify B g [m] [p] true = true <-> g2_in B g = true /\ pair_ B p (hash_g2 B m) = pair_ B (g1_gen B) g).
  { unfold blst_aggregate_verify. cbn [forallb pairings]. rewrite (l_gt_one B L), Ev.
    unfold validate in Ev. apply andb_true_iff in Ev as [Ei _]. rewrite Ei. cbn. rewrite !andb_true_r, andb_true_iff, (l_gt_eqb B L). reflexivity. }
  destruct (blst_aggregate_verify B g [m] [p] true); split; intros X; try discriminate.
  - exists p, g. destruct (proj1 H eq_refl) as [H1 H2]. auto.
  - reflexivity.
  - destruct X as (p' & g' & Hp & _ & Hg & Hi & He). rewrite Ep in Hp. injection Hp as <-. rewrite Es in Hg. injection Hg as <-.
    assert (Y : false = true) by (apply H; auto). discriminate.
Qed.

Lemma fast_iff pks m s :
  fast_aggregate_verify B pks m s = Ok tt <->
  pks <> [] /\ exists ps g, Forall2 (fun b p => g1_decode B b = Some p /\ validate B p = true) pks ps /\ g2_decode B s = Some g /\
    g2_in B g = true /\ g1_is_inf B (g1_sum B ps) = false /\ pair_ B (g1_sum B ps) (hash_g2 B m) = pair_ B (g1_gen B) g.
Proof.
  unfold fast_aggregate_verify.
  assert (K : forall ps, rmap (key_validate B) pks = Ok ps <-> Forall2 (fun b p => g1_decode B b = Some p /\ validate B p = true) pks ps).
  { intros ps. rewrite rmap_ok. split; intros H; induction H as [|x y a b Hxy _ IH]; constructor; try assumption; apply key_validate_iff; exact Hxy. }
  destruct (rmap (key_validate B) pks) as [ps| | |] eqn:Ek; cbn [rbind];
    try (split; [discriminate|]; intros (_ & ps & g & Hp & _); apply K in Hp; congruence).
  assert (Kp := proj1 (K ps) eq_refl).
  assert (Hlen : length pks = length ps) by (clear -Kp; induction Kp; cbn; congruence).
  destruct (sig_from_bytes B s) as [g| | |] eqn:Es; cbn [rbind];
    try (split; [discriminate|]; intros (_ & ps' & g & _ & Hg & _); apply sig_from_iff in Hg; congruence).
  apply sig_from_iff in Es.
  assert (H : negb (lenN ps =? 0) && blst_aggregate_verify B g [m] [g1_sum B ps] false = true <->
    pks <> [] /\ g2_in B g = true /\ g1_is_inf B (g1_sum B ps) = false /\ pair_ B (g1_sum B ps) (hash_g2 B m) = pair_ B (g1_gen B) g).
  { unfold blst_aggregate_verify. cbn [forallb pairings]. rewrite (l_gt_one B L). cbn. rewrite !andb_true_r, !andb_true_iff, (l_gt_eqb B L), !negb_true_iff.
    assert (X : (lenN ps =? 0) = false <-> pks <> []).
    { unfold lenN. rewrite <- Hlen. clear. destruct pks; cbn [length]; split; intros; try discriminate; try congruence; lia. }
    rewrite X. tauto. }
  destruct (negb (lenN ps =? 0) && blst_aggregate_verify B g [m] [g1_sum B ps] false); split; intros X; try discriminate.
  - destruct (proj1 H eq_refl) as (H0 & H1 & H2 & H3). split; [exact H0|]. exists ps, g. auto.
  - reflexivity.
  - destruct X as (H0 & ps' & g' & Hp & Hg & Hi & Hn & He). apply K in Hp. injection Hp as <-. rewrite Es in Hg. injection Hg as <-.
    assert (Y : false = true) by (apply H; auto). discriminate.
Qed.

Lemma forall2_decode_inj {X} (f : bytes -> option X) (P : X -> Prop) a ps qs :
  Forall2 (fun b p => f b = Some p /\ P p) a ps -> Forall2 (fun b p => f b = Some p /\ P p) a qs -> ps = qs.
Proof.
  intros H. revert qs. induction H as [|b p a ps [Hb _] _ IH]; intros qs Hq; inversion Hq as [|b' q a' qs' [Hb' _] Hq' E1 E2]; subst; [reflexivity|].
  f_equal; [congruence|apply IH; assumption].
Qed.

Lemma aggregate_iff sgs out :
  aggregate B sgs = Ok out <->
  sgs <> [] /\ exists gs, Forall2 (fun b g => g2_decode B b = Some g) sgs gs /\ forallb (g2_in B) gs = true /\ out = g2_encode B (g2_sum B gs).
Proof.
  unfold aggregate. destruct sgs as [|s t]; [split; [discriminate|intros [H _]; congruence]|].
  assert (K : forall gs, rmap (sig_from_bytes B) (s :: t) = Ok gs <-> Forall2 (fun b g => g2_decode B b = Some g) (s :: t) gs).
  { intros gs. rewrite rmap_ok. generalize (s :: t). intros l. split; intros H; induction H as [|x y a b Hxy _ IH]; constructor; try assumption; apply sig_from_iff; exact Hxy. }
  destruct (rmap (sig_from_bytes B) (s :: t)) as [gs| | |] eqn:Ek; cbn [rbind];
    try (split; [discriminate|]; intros (_ & gs & Hg & _); apply K in Hg; congruence).
  unfold signature_bytes. rewrite (l_len2 B L). change (96 =? BLS_SIGNATURE_BYTES_LEN) with true.
  assert (Kp := proj1 (K gs) eq_refl).
  destruct (forallb (g2_in B) gs) eqn:Ei; split; intros X.
  - injection X as <-. split; [discriminate|]. exists gs. auto.
  - destruct X as (_ & gs' & Hg & _ & ->). apply K in Hg. injection Hg as <-. reflexivity.
  - discriminate.
  - destruct X as (_ & gs' & Hg & Hi & _). apply K in Hg. injection Hg as <-. congruence.
Qed.

Lemma apk_iff pks out :
  eth_aggregate_public_keys B pks = Ok out <->
  pks <> [] /\ exists ps, Forall2 (fun b p => g1_decode B b = Some p /\ validate B p = true) pks ps /\ out = g1_encode B (g1_sum B ps).
Proof.
  unfold eth_aggregate_public_keys. destruct pks as [|s t]; [split; [discriminate|intros [H _]; congruence]|].
  assert (K : forall gs, rmap (key_validate B) (s :: t) = Ok gs <-> Forall2 (fun b p => g1_decode B b = Some p /\ validate B p = true) (s :: t) gs).
  { intros gs. rewrite rmap_ok. generalize (s :: t). intros l. split; intros H; induction H as [|x y a b Hxy _ IH]; constructor; try assumption; apply key_validate_iff; exact Hxy. }
  destruct (rmap (key_validate B) (s :: t)) as [gs| | |] eqn:Ek; cbn [rbind];
    try (split; [discriminate|]; intros (_ & gs & Hg & _); apply K in Hg; congruence).
  unfold public_key_bytes. rewrite (l_len1 B L). change (48 =? BLS_PUBLIC_KEY_BYTES_LEN) with true.
  assert (Kp := proj1 (K gs) eq_refl).
  assert (Hv : forallb (validate B) gs = true).
  { clear -Kp. induction Kp as [|b p a ps [_ Hp] _ IH]; [reflexivity|]. cbn [forallb]. rewrite Hp, IH. reflexivity. }
  rewrite Hv. split; intros X.
  - injection X as <-. split; [discriminate|]. exists gs. auto.
  - destruct X as (_ & gs' & Hg & ->). apply K in Hg. injection Hg as <-. reflexivity.
Qed.

Lemma validate_in p : validate B p = true -> g1_in B p = true.
Proof. unfold validate. rewrite andb_true_iff. tauto. Qed.
Lemma forall2_in pks ps : Forall2 (fun b p => g1_decode B b = Some p /\ validate B p = true) pks ps -> forallb (g1_in B) ps = true.
Proof. induction 1 as [|b p a ps [_ Hp] _ IH]; [reflexivity|]. cbn [forallb]. rewrite (validate_in p Hp), IH. reflexivity. Qed.

(** signatures on one message: the sum is the signature of the sum *)
Lemma pair_sum_same ks m :
  pair_ B (g1_times B (sumN ks) (g1_gen B)) (hash_g2 B m) =
  pair_ B (g1_gen B) (g2_sum B (map (fun k => g2_times B k (hash_g2 B m)) ks)).
Proof.
  rewrite g2_sum_r. induction ks as [|k t IH]; cbn [map fold_right].
  - change (sumN []) with 0. rewrite g1_times_0, (l_pair_inf1 B L), (l_pair_inf2 B L). reflexivity.
  - change (sumN (k :: t)) with (k + sumN t). rewrite g1_times_add, (l_pair_left B L), (l_pair_right B L), IH, pair_times. reflexivity.
Qed.
Lemma pair_sum_msgs (kms : list (N * bytes)) :
  pairings B (map (fun km => g1_times B (fst km) (g1_gen B)) kms) (map snd kms) =
  pair_ B (g1_gen B) (g2_sum B (map (fun km => g2_times B (fst km) (hash_g2 B (snd km))) kms)).
Proof.
  rewrite g2_sum_r. induction kms as [|[k m] t IH]; cbn [map fold_right pairings fst snd].
  - rewrite (l_pair_inf2 B L). reflexivity.
  - rewrite (l_pair_right B L), IH, pair_times. reflexivity.
Qed.
End S.
