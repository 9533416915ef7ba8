(** * C69: signing, verification and aggregation agree *)
From Coq Require Import Permutation Sorting.Sorted.
From Verif Require Import Base BaseLemmas Types Ctx Env Helpers SpecOps SpecHelpers HelperProofs PropsHelpers FlowProofs Presets Toy Signing SpecSigning SigningProofs.

(** C69 — Signing with a secret key never fails, and the signature verifies under its public key: all keys, all messages. *)
Theorem C69_sign_verify : forall B, blst_laws B -> forall k pk m, key B k pk ->
  exists sg, sign B k m = Ok sg /\ lenN sg = 96 /\ verify_signature B pk m sg = Ok tt.
Proof.
  intros B L k pk m [Hk Hpk]. rewrite (public_key_ok B L) in Hpk. injection Hpk as <-.
  exists (g2_encode B (g2_times B k (hash_g2 B m))). split; [apply (sign_ok B L)|]. split; [apply (l_len2 B L)|].
  apply (verify_iff B L). exists (g1_times B k (g1_gen B)), (g2_times B k (hash_g2 B m)).
  split; [apply (l_enc1 B L)|]. split; [apply (key_point B L k Hk)|]. split; [apply (l_enc2 B L)|].
  split; [apply (g2_times_in B L), (l_in2_hash B L)|apply (pair_times B L)].
Qed.

(** C69 — every key has exactly one accepted signature per message: whatever was received and accepted is the signature the key holder would make. *)
Theorem C69_unique : forall B, blst_laws B -> forall k pk m sg, key B k pk ->
  (verify_signature B pk m sg = Ok tt <-> sign B k m = Ok sg).
Proof.
  intros B L k pk m sg Hkey. destruct (C69_sign_verify B L k pk m Hkey) as (sg0 & Hs & _ & Hv). split.
  - intros H. rewrite Hs. f_equal. apply (verify_iff B L) in H as (p & g & Hp & _ & Hg & Hi & He).
    apply (verify_iff B L) in Hv as (p0 & g0 & Hp0 & _ & Hg0 & Hi0 & He0). rewrite Hp in Hp0. injection Hp0 as <-.
    assert (E : g0 = g) by (apply (l_pair_inj B L); congruence). subst g0.
    rewrite <- (l_dec2 B L _ _ Hg), <- (l_dec2 B L _ _ Hg0). reflexivity.
  - intros H. congruence.
Qed.

(** C69 — a signature made for one message is accepted for another only if both hash to the same point of the curve. *)
Theorem C69_other_message : forall B, blst_laws B -> forall k pk m m' sg, key B k pk ->
  sign B k m = Ok sg -> verify_signature B pk m' sg = Ok tt -> hash_g2 B m = hash_g2 B m'.
Proof.
  intros B L k pk m m' sg Hkey Hs Hv. apply (C69_unique B L k pk m' sg Hkey) in Hv.
  rewrite (sign_ok B L) in Hs, Hv. rewrite <- Hs in Hv. injection Hv as Hv.
  apply (f_equal (g2_decode B)) in Hv. rewrite !(l_enc2 B L) in Hv. injection Hv as Hv.
  destruct Hkey as [Hk _]. apply (secret_ok_iff B) in Hk. symmetry. exact (l_g2_cancel B L k _ _ Hk (l_in2_hash B L m') (l_in2_hash B L m) Hv).
Qed.

Lemma keys_points B (L : blst_laws B) ks pks : Forall2 (key B) ks pks ->
  Forall2 (fun b p => g1_decode B b = Some p /\ validate B p = true) pks (map (fun k => g1_times B k (g1_gen B)) ks).
Proof.
  induction 1 as [|k pk ks pks [Hk Hp] _ IH]; cbn [map]; constructor; [|exact IH].
  rewrite (public_key_ok B L) in Hp. injection Hp as <-. split; [apply (l_enc1 B L)|apply (key_point B L k Hk)].
Qed.

(** C69 — Aggregation, one message: any number of keys sign the same message; the aggregate of their signatures exists and is accepted for their public
    keys by [fast_aggregate_verify], unless the secret keys sum to zero modulo the group order, when it is refused. *)
Theorem C69_aggregate_one_message : forall B, blst_laws B -> forall ks pks sgs m,
  ks <> [] -> Forall2 (key B) ks pks -> Forall2 (fun k sg => sign B k m = Ok sg) ks sgs ->
  exists agg, aggregate B sgs = Ok agg /\ (fast_aggregate_verify B pks m agg = Ok tt <-> sumN ks mod order B <> 0).
Proof.
  intros B L ks pks sgs m Hne Hk Hs.
  assert (Hg : Forall2 (fun b g => g2_decode B b = Some g) sgs (map (fun k => g2_times B k (hash_g2 B m)) ks)).
  { clear -Hs L. induction Hs as [|k sg ks sgs Hk _ IH]; cbn [map]; constructor; [|exact IH].
    rewrite (sign_ok B L) in Hk. injection Hk as <-. apply (l_enc2 B L). }
  assert (Hin : forallb (g2_in B) (map (fun k => g2_times B k (hash_g2 B m)) ks) = true).
  { clear -L. induction ks as [|k t IH]; [reflexivity|]. cbn [map forallb]. rewrite (g2_times_in B L k _ (l_in2_hash B L m)), IH. reflexivity. }
  exists (g2_encode B (g2_sum B (map (fun k => g2_times B k (hash_g2 B m)) ks))). split.
  - apply (aggregate_iff B L). split; [intros ->; inversion Hs; subst; congruence|].
    exists (map (fun k => g2_times B k (hash_g2 B m)) ks). auto.
  - rewrite (fast_iff B L). pose proof (keys_points B L ks pks Hk) as Hp. split.
    + intros (_ & ps & g & Hps & _ & _ & Hinf & _) Hz.
      rewrite (forall2_decode_inj _ _ _ _ _ Hps Hp), (g1_sum_keys B L) in Hinf. apply (l_gen_order B L) in Hz. apply (l_g1_is_inf B L) in Hz. congruence.
    + intros Hz. split; [intros ->; inversion Hk; subst; congruence|].
      exists (map (fun k => g1_times B k (g1_gen B)) ks), (g2_sum B (map (fun k => g2_times B k (hash_g2 B m)) ks)).
      split; [exact Hp|]. split; [apply (l_enc2 B L)|]. split; [apply (g2_sum_in B L); exact Hin|]. split.
      * apply not_true_iff_false. rewrite (l_g1_is_inf B L), (g1_sum_keys B L), (l_gen_order B L). exact Hz.
      * rewrite (g1_sum_keys B L). apply (pair_sum_same B L).
Qed.

(** C69 — Aggregation, a message per key: the aggregate is accepted by [aggregate_verify], without condition. *)
Theorem C69_aggregate_messages : forall B, blst_laws B -> forall (kms : list (N * bytes)) pks sgs,
  kms <> [] -> Forall2 (fun km pk => key B (fst km) pk) kms pks -> Forall2 (fun km sg => sign B (fst km) (snd km) = Ok sg) kms sgs ->
  exists agg, aggregate B sgs = Ok agg /\ aggregate_verify B pks (map snd kms) agg = Ok tt.
Proof.
  intros B L kms pks sgs Hne Hk Hs.
  set (gs := map (fun km => g2_times B (fst km) (hash_g2 B (snd km))) kms).
  assert (Hg : Forall2 (fun b g => g2_decode B b = Some g) sgs gs).
  { subst gs. clear -Hs L. induction Hs as [|k sg ks sgs Hk _ IH]; cbn [map]; constructor; [|exact IH].
    rewrite (sign_ok B L) in Hk. injection Hk as <-. apply (l_enc2 B L). }
  assert (Hin : forallb (g2_in B) gs = true).
  { subst gs. clear -L. induction kms as [|k t IH]; [reflexivity|]. cbn [map forallb]. rewrite (g2_times_in B L _ _ (l_in2_hash B L _)), IH. reflexivity. }
  exists (g2_encode B (g2_sum B gs)). split.
  - apply (aggregate_iff B L). split; [intros ->; inversion Hs; subst; congruence|]. exists gs. auto.
  - unfold aggregate_verify.
    assert (Hr : rmap (key_validate B) pks = Ok (map (fun km => g1_times B (fst km) (g1_gen B)) kms)).
    { apply rmap_ok. clear -Hk L. induction Hk as [|km pk kms pks [Hk Hp] _ IH]; cbn [map]; constructor; [|exact IH].
      rewrite (public_key_ok B L) in Hp. injection Hp as <-. apply (key_validated B L _ Hk). }
    rewrite Hr. cbn [rbind]. unfold sig_from_bytes. rewrite (l_enc2 B L). cbn [rbind].
    assert (Hv : forallb (validate B) (map (fun km => g1_times B (fst km) (g1_gen B)) kms) = true).
    { clear -Hk L. induction Hk as [|km pk kms pks [Hk Hp] _ IH]; [reflexivity|]. cbn [map forallb]. rewrite (key_point B L _ Hk), IH. reflexivity. }
    assert (Hi : forallb (fun p => negb (g1_is_inf B p)) (map (fun km => g1_times B (fst km) (g1_gen B)) kms) = true).
    { clear -Hv. induction (map _ kms) as [|p t IH]; [reflexivity|]. cbn [forallb] in *. apply andb_true_iff in Hv as [Hp Ht].
      unfold validate in Hp. apply andb_true_iff in Hp as [Hp _]. rewrite Hp. exact (IH Ht). }
    unfold blst_aggregate_verify. rewrite Hv, Hi, (g2_sum_in B L gs Hin), (pair_sum_msgs B L kms).
    fold gs. assert (Hq : gt_eqb B (pair_ B (g1_gen B) (g2_sum B gs)) (pair_ B (g1_gen B) (g2_sum B gs)) = true) by (apply (l_gt_eqb B L); reflexivity).
    rewrite Hq. unfold lenN. rewrite !map_length, N.eqb_refl.
    assert (Hl : (N.of_nat (length kms) =? 0) = false) by (destruct kms; [congruence|cbn [length]; lia]). rewrite Hl. reflexivity.
Qed.

(** C69 — the aggregate public key stands for the keys: a signature is accepted under it exactly when the aggregate check accepts it for the keys. *)
Theorem C69_aggregate_key : forall B, blst_laws B -> forall pks apk m sg,
  eth_aggregate_public_keys B pks = Ok apk ->
  (verify_signature B apk m sg = Ok tt <-> fast_aggregate_verify B pks m sg = Ok tt).
Proof.
  intros B L pks apk m sg Ha. apply (apk_iff B L) in Ha as (Hne & ps & Hps & ->).
  rewrite (verify_iff B L), (fast_iff B L). split.
  - intros (p & g & Hp & Hv & Hg & Hi & He). rewrite (l_enc1 B L) in Hp. injection Hp as <-.
    split; [exact Hne|]. exists ps, g. split; [exact Hps|]. split; [exact Hg|]. split; [exact Hi|]. split; [|exact He].
    unfold validate in Hv. apply andb_true_iff in Hv as [Hv _]. apply negb_true_iff in Hv. exact Hv.
  - intros (_ & ps' & g & Hps' & Hg & Hi & Hn & He). assert (ps' = ps) by exact (forall2_decode_inj _ _ _ _ _ Hps' Hps). subst ps'.
    exists (g1_sum B ps), g. split; [apply (l_enc1 B L)|]. split; [|auto].
    unfold validate. rewrite Hn, (g1_sum_in B L ps (forall2_in B pks ps Hps)). reflexivity.
Qed.

(** C69 — the order of the keys and of the signatures does not matter. *)
Theorem C69_order : forall B, blst_laws B -> forall pks pks' sgs sgs' m sg,
  Permutation pks pks' -> Permutation sgs sgs' ->
  (fast_aggregate_verify B pks m sg = Ok tt <-> fast_aggregate_verify B pks' m sg = Ok tt) /\
  (forall agg, aggregate B sgs = Ok agg <-> aggregate B sgs' = Ok agg) /\
  (forall apk, eth_aggregate_public_keys B pks = Ok apk <-> eth_aggregate_public_keys B pks' = Ok apk).
Proof.
  intros B L.
  assert (P2 : forall {X Y} (R : X -> Y -> Prop) a b, Permutation a b -> forall xs, Forall2 R a xs -> exists ys, Permutation xs ys /\ Forall2 R b ys).
  { intros X Y R a b. induction 1 as [|x a b _ IH|x y a|a b c _ IH1 _ IH2]; intros xs H.
    - inversion H; subst. exists []. split; constructor.
    - inversion H as [|? u ? us Hu Hus]; subst. destruct (IH us Hus) as (ys & Hp & Hf). exists (u :: ys). split; constructor; assumption.
    - inversion H as [|? u ? us Hu Hus]; subst. inversion Hus as [|? w ? ws Hw Hws]; subst. exists (w :: u :: ws). split; [constructor|repeat constructor; assumption].
    - destruct (IH1 xs H) as (ys & Hp & Hf). destruct (IH2 ys Hf) as (zs & Hp' & Hf'). exists zs. split; [eapply perm_trans; eassumption|exact Hf']. }
  assert (Hf : forall pks pks' m sg, Permutation pks pks' -> fast_aggregate_verify B pks m sg = Ok tt -> fast_aggregate_verify B pks' m sg = Ok tt).
  { intros a b m sg Hp H. apply (fast_iff B L) in H as (Hne & ps & g & Hps & Hg & Hi & Hn & He). apply (fast_iff B L).
    destruct (P2 _ _ _ a b Hp ps Hps) as (qs & Hpq & Hqs). rewrite (g1_sum_perm B L ps qs Hpq) in Hn, He.
    split; [intros ->; apply Permutation_sym, Permutation_nil in Hp; congruence|]. exists qs, g. auto. }
  assert (Ha : forall a b agg, Permutation a b -> aggregate B a = Ok agg -> aggregate B b = Ok agg).
  { intros a b agg Hp H. apply (aggregate_iff B L) in H as (Hne & gs & Hgs & Hi & ->). apply (aggregate_iff B L).
    destruct (P2 _ _ _ a b Hp gs Hgs) as (qs & Hpq & Hqs). rewrite (g2_sum_perm B L gs qs Hpq).
    split; [intros ->; apply Permutation_sym, Permutation_nil in Hp; congruence|]. exists qs. split; [exact Hqs|]. split; [|reflexivity].
    rewrite forallb_forall in *. intros x Hx. apply Hi. eapply Permutation_in; [apply Permutation_sym; exact Hpq|exact Hx]. }
  assert (Hk : forall a b apk, Permutation a b -> eth_aggregate_public_keys B a = Ok apk -> eth_aggregate_public_keys B b = Ok apk).
  { intros a b agg Hp H. apply (apk_iff B L) in H as (Hne & gs & Hgs & ->). apply (apk_iff B L).
    destruct (P2 _ _ _ a b Hp gs Hgs) as (qs & Hpq & Hqs). rewrite (g1_sum_perm B L gs qs Hpq).
    split; [intros ->; apply Permutation_sym, Permutation_nil in Hp; congruence|]. exists qs. auto. }
  intros pks pks' sgs sgs' m sg Hp Hs. split; [|split]; intros; split; intros H.
  - exact (Hf _ _ _ _ Hp H).
  - exact (Hf _ _ _ _ (Permutation_sym Hp) H).
  - exact (Ha _ _ _ Hs H).
  - exact (Ha _ _ _ (Permutation_sym Hs) H).
  - exact (Hk _ _ _ Hp H).
  - exact (Hk _ _ _ (Permutation_sym Hp) H).
Qed.

(** C69 — nothing to aggregate is an error; with no keys only the signature that is the point at infinity is accepted, and only by the variant for sync
    committees. That point is accepted for no key at all. *)
Theorem C69_empty : forall B, blst_laws B -> forall m sg,
  aggregate B [] = Err EBls /\ eth_aggregate_public_keys B [] = Err EBls /\
  fast_aggregate_verify B [] m sg <> Ok tt /\ aggregate_verify B [] [] sg <> Ok tt /\
  (eth_fast_aggregate_verify B [] m sg = Ok tt <-> sg = 192 :: repeat 0 95) /\
  (forall pk pks, eth_fast_aggregate_verify B (pk :: pks) m sg = Ok tt <-> fast_aggregate_verify B (pk :: pks) m sg = Ok tt).
Proof.
  intros B L m sg. split; [reflexivity|]. split; [reflexivity|].
  assert (Hf : fast_aggregate_verify B [] m sg <> Ok tt) by (rewrite (fast_iff B L); intros [H _]; congruence).
  split; [exact Hf|]. split.
  - unfold aggregate_verify. cbn [rmap rbind]. destruct (sig_from_bytes B sg); cbn [rbind]; try discriminate.
  - split; [|intros pk pks; unfold eth_fast_aggregate_verify; cbn [lenN length]; unfold lenN; cbn [length];
             assert (X : (N.of_nat (S (length pks)) =? 0) = false) by lia; rewrite X; reflexivity].
    unfold eth_fast_aggregate_verify, is_infinity. change (lenN (@nil bytes) =? 0) with true. cbn [andb].
    destruct (bytes_eqb sg INFINITY_COMPRESSED_SIGNATURE) eqn:E; split; intros H; try reflexivity.
    + apply bytes_eqb_iff in E. exact E.
    + exfalso. exact (Hf H).
    + subst sg. assert (X : bytes_eqb (192 :: repeat 0 95) INFINITY_COMPRESSED_SIGNATURE = true) by (apply bytes_eqb_iff; reflexivity). congruence.
Qed.

(** C69 — [sign_with_domain] and [verify_signed_data]: what is signed for an object and a domain verifies for them, and for another object or domain only if
    the two signing roots hash to the same point. *)
Theorem C69_signed_data : forall B E, blst_laws B -> oracles_are B E -> forall o k pk dom sg, key B k pk ->
  sign_with_domain B E o k dom = Ok sg ->
  verify_signed_data E o sg pk dom = Ok tt /\
  (forall o' dom', verify_signed_data E o' sg pk dom' = Ok tt ->
     exists r r', is_signing_root E o dom r /\ is_signing_root E o' dom' r' /\ hash_g2 B r = hash_g2 B r').
Proof.
  intros B E L (Ov & _) o k pk dom sg Hkey Hs. unfold sign_with_domain in Hs.
  assert (Hroot : forall o dom r, compute_signing_root E o dom = Ok r -> is_signing_root E o dom r).
  { intros o0 d0 r H. unfold compute_signing_root, htr_r in H. destruct (htr E o0) as [a|] eqn:E1; cbn [rbind ok_or] in H; [|discriminate].
    destruct (htr E (OSigningData a d0)) as [b|] eqn:E2; cbn [ok_or] in H; [|discriminate]. injection H as <-. exists a. auto. }
  destruct (compute_signing_root E o dom) as [r| | |] eqn:Er; cbn [rbind] in Hs; try discriminate.
  unfold verify_signed_data. rewrite Er. cbn [rbind]. unfold verify_sig, require. rewrite Ov.
  destruct (C69_sign_verify B L k pk r Hkey) as (sg' & Hs' & _ & Hv). rewrite Hs in Hs'. injection Hs' as <-. rewrite Hv. split; [reflexivity|].
  intros o' dom' H. destruct (compute_signing_root E o' dom') as [r'| | |] eqn:Er'; cbn [rbind] in H; try discriminate.
  exists r, r'. split; [apply Hroot; exact Er|]. split; [apply Hroot; exact Er'|].
  rewrite Ov in H. destruct (verify_signature B pk r' sg) as [[]| | |] eqn:Ev; cbn in H; try discriminate.
  exact (C69_other_message B L k pk r r' sg Hkey Hs Ev).
Qed.

(** C69 — end to end: an indexed attestation whose signature aggregates the signatures of exactly its attesters, on the attestation data in the domain the
    state prescribes, is valid. *)
Theorem C69_attestation_accepted : forall B E, blst_laws B -> oracles_are B E -> forall s ia ks dom root sgs,
  ia_attesting_indices ia <> [] -> StronglySorted N.lt (ia_attesting_indices ia) ->
  Forall2 (fun i k => exists v, nthN (validators s) i = Some v /\ key B k (v_public_key v)) (ia_attesting_indices ia) ks ->
  is_domain E [1; 0; 0; 0] (version_at s (cp_epoch (ad_target (ia_data ia)))) (genesis_validators_root s) dom ->
  is_signing_root E (OAttestationData (ia_data ia)) dom root ->
  Forall2 (fun k sg => sign B k root = Ok sg) ks sgs -> aggregate B sgs = Ok (ia_signature ia) -> sumN ks mod order B <> 0 ->
  is_valid_indexed_attestation E s ia = Ok tt.
Proof.
  intros B E L (_ & Of & _) s ia ks dom root sgs Hne Hsort Hk Hd Hr Hs Ha Hz. apply C06_indexed_attestation.
  split; [exact Hne|]. split; [exact Hsort|].
  assert (Hp : exists pks, Forall2 (fun i pk => exists v, nthN (validators s) i = Some v /\ pk = v_public_key v) (ia_attesting_indices ia) pks
               /\ Forall2 (key B) ks pks).
  { clear -Hk. induction Hk as [|i k is_ ks (v & Hv & Hkv) _ IH]; [exists []; split; constructor|].
    destruct IH as (pks & H1 & H2). exists (v_public_key v :: pks). split; constructor; eauto. }
  destruct Hp as (pks & Hpk & Hkk). exists pks, dom, root. split; [exact Hpk|]. split; [exact Hd|]. split; [exact Hr|].
  assert (Hks : ks <> []) by (intros ->; inversion Hk; congruence).
  destruct (C69_aggregate_one_message B L ks pks sgs root Hks Hkk Hs) as (agg & Ha' & Hv). rewrite Ha in Ha'. injection Ha' as <-.
  rewrite Of, (proj2 Hv Hz). reflexivity.
Qed.

(** C69 — the builder domain: type 00000001, the genesis fork version and the zero root, whatever the chain; it has no other input. *)
Theorem C69_builder_domain : forall (E : Env) d,
  compute_builder_domain E = Ok d -> is_domain E [0; 0; 0; 1] (GENESIS_FORK_VERSION E) zero32 d.
Proof.
  intros E d H. unfold compute_builder_domain, compute_domain, compute_fork_data_root, htr_r in H.
  destruct (htr E (OForkData (GENESIS_FORK_VERSION E) zero32)) as [r|] eqn:Er; cbn [ok_or rbind] in H; [|discriminate].
  unfold slice_to in H. destruct (28 <=? lenN r) eqn:El; cbn [rbind] in H; [|discriminate]. injection H as <-.
  exists r. split; [exact Er|]. split; [lia|]. reflexivity.
Qed.

(** ** A concrete instance: groups of order three, the pairing is multiplication *)
Inductive Z3 : Type := T0 | T1 | T2.
Definition z3_add (a b : Z3) : Z3 :=
  match a, b with T0, x => x | x, T0 => x | T1, T1 => T2 | T2, T2 => T1 | _, _ => T0 end.
Definition z3_mul (a b : Z3) : Z3 := match a, b with T0, _ => T0 | _, T0 => T0 | T1, x => x | x, T1 => x | T2, T2 => T1 end.
Definition z3_num (a : Z3) : N := match a with T0 => 0 | T1 => 1 | T2 => 2 end.
Definition z3_enc (len : nat) (a : Z3) : bytes := z3_num a :: repeat 0 len.
Definition z3_dec (len : nat) (b : bytes) : option Z3 :=
  if bytes_eqb b (z3_enc len T0) then Some T0 else if bytes_eqb b (z3_enc len T1) then Some T1 else if bytes_eqb b (z3_enc len T2) then Some T2 else None.
Definition toy_blst : Blst :=
  mkBlst Z3 Z3 Z3 T1 T0 z3_add (fun a => match a with T0 => true | _ => false end) (fun _ => true) T0 z3_add (fun _ => true)
    T0 z3_add (fun a b => z3_num a =? z3_num b) z3_mul (fun m => if sumN m mod 2 =? 0 then T1 else T2) (z3_enc 47) (z3_dec 47) (z3_enc 95) (z3_dec 95) 3.

Lemma z3_enc_dec len a : z3_dec len (z3_enc len a) = Some a.
Proof.
  unfold z3_dec.
  assert (R : forall x, bytes_eqb (z3_enc len x) (z3_enc len x) = true) by (intros; apply bytes_eqb_iff; reflexivity).
  assert (D : forall x y, x <> y -> bytes_eqb (z3_enc len x) (z3_enc len y) = false).
  { intros x y H. apply not_true_iff_false. rewrite bytes_eqb_iff. unfold z3_enc. intros X. injection X as X. destruct x, y; try discriminate; congruence. }
  destruct a; rewrite ?R, ?D by discriminate; reflexivity.
Qed.
Lemma z3_dec_enc len b a : z3_dec len b = Some a -> z3_enc len a = b.
Proof.
  unfold z3_dec. intros H.
  destruct (bytes_eqb b (z3_enc len T0)) eqn:E0; [apply bytes_eqb_iff in E0; congruence|].
  destruct (bytes_eqb b (z3_enc len T1)) eqn:E1; [apply bytes_eqb_iff in E1; congruence|].
  destruct (bytes_eqb b (z3_enc len T2)) eqn:E2; [apply bytes_eqb_iff in E2; congruence|discriminate].
Qed.
Lemma z3_times k : g1_times toy_blst k T1 = match k mod 3 with 0 => T0 | 1 => T1 | _ => T2 end.
Proof.
  induction k as [|k IH] using N.peano_ind; [reflexivity|]. rewrite (g1_times_succ toy_blst), IH. cbn [g1_add toy_blst].
  assert (H : k mod 3 = 0 /\ N.succ k mod 3 = 1 \/ k mod 3 = 1 /\ N.succ k mod 3 = 2 \/ k mod 3 = 2 /\ N.succ k mod 3 = 0) by lia.
  destruct H as [[-> ->]|[[-> ->]|[-> ->]]]; reflexivity.
Qed.

Lemma toy_laws : blst_laws toy_blst.
Proof.
  constructor; cbn [toy_blst G1 G2 GT g1_gen g1_inf g1_add g1_is_inf g1_in g2_inf g2_add g2_in gt_one gt_mul gt_eqb pair_ hash_g2 g1_encode g1_decode g2_encode
    g2_decode order]; try reflexivity;
    try (intros a b c; destruct a, b, c; reflexivity); try (intros a b; destruct a, b; reflexivity); try (intros a; destruct a; reflexivity).
  - intros a b. destruct a, b; cbn; split; intros; try reflexivity; discriminate.
  - intros a. destruct a; cbn; split; intros; try reflexivity; discriminate.
  - intros k. rewrite z3_times. assert (H : k mod 3 = 0 \/ k mod 3 = 1 \/ k mod 3 = 2) by lia.
    destruct H as [->|[->| ->]]; split; intros; try discriminate; reflexivity.
  - intros k a b Hk _ _ H. assert (E : k = 1 \/ k = 2) by lia. destruct E as [-> | ->]; destruct a, b; try discriminate; reflexivity.
  - intros s t _ _ H. destruct s, t; try discriminate; reflexivity.
  - intros b p. apply z3_dec_enc.
Qed.

Example C69_toy :
  exists pk sg, key toy_blst 1 pk /\ sign toy_blst 1 [7] = Ok sg /\ aggregate toy_blst [sg; sg] = Ok (z3_enc 95 T1)
    /\ fast_aggregate_verify toy_blst [pk; pk] [7] (z3_enc 95 T1) = Ok tt
    /\ verify_signature toy_blst pk [8] sg <> Ok tt.
Proof.
  exists (z3_enc 47 T1), (z3_enc 95 T2). split; [split; reflexivity|]. split; [reflexivity|]. split; [vm_compute; reflexivity|].
  split; [vm_compute; reflexivity|]. vm_compute. discriminate.
Qed.

(** an environment whose checks are those of the concrete instance, and an attestation by two validators of it *)
Definition toy_bls_env : Env :=
  mkEnv ctx_minimal (mkOracles toy_hash toy_htr (fun pk m s => is_ok (verify_signature toy_blst pk m s))
    (fun pks m s => is_ok (fast_aggregate_verify toy_blst pks m s))
    (fun pks => match eth_aggregate_public_keys toy_blst pks with Ok p => Some p | _ => None end)
    (merkle_branch_ok toy_orc) (engine_ok toy_orc)) true false 100%nat.
Definition two_validators : BeaconState := set_validators [toy_validator 0; toy_validator 0] (toy_state 1 17).
Definition toy_att_root : bytes := toy_root (OAttestationData (vote 1 2 0)) (toy_domain [1; 0; 0; 0] [1; 0; 0; 1] two_validators).
Definition toy_att_sig : bytes := match sign toy_blst 1 toy_att_root with Ok s => s | _ => [] end.
Definition toy_attestation : IndexedAttestation :=
  mkIndexed [0; 1] (vote 1 2 0) (match aggregate toy_blst [toy_att_sig; toy_att_sig] with Ok s => s | _ => [] end).
Example C69_attestation_toy :
  blst_laws toy_blst /\ oracles_are toy_blst toy_bls_env /\ is_valid_indexed_attestation toy_bls_env two_validators toy_attestation = Ok tt.
Proof.
  split; [apply toy_laws|].
  assert (Ho : oracles_are toy_blst toy_bls_env) by (split; [|split]; intros; reflexivity). split; [exact Ho|].
  assert (Hs : sign toy_blst 1 toy_att_root = Ok toy_att_sig) by (unfold toy_att_sig; rewrite (sign_ok toy_blst toy_laws); reflexivity).
  apply (C69_attestation_accepted toy_blst toy_bls_env toy_laws Ho two_validators toy_attestation [1; 1]
           (toy_domain [1; 0; 0; 0] [1; 0; 0; 1] two_validators) toy_att_root [toy_att_sig; toy_att_sig]).
  - discriminate.
  - cbn [toy_attestation ia_attesting_indices]. repeat constructor.
  - cbn [toy_attestation ia_attesting_indices]. repeat constructor; exists (toy_validator 0); (split; [reflexivity|split; reflexivity]).
  - exists (toy_hash (1 :: [1; 0; 0; 1] ++ genesis_validators_root two_validators)). split; [reflexivity|]. split; [vm_compute; discriminate|reflexivity].
  - eexists; split; reflexivity.
  - constructor; [exact Hs|constructor; [exact Hs|constructor]].
  - cbn [toy_attestation ia_signature].
    destruct (C69_aggregate_one_message toy_blst toy_laws [1; 1] [z3_enc 47 T1; z3_enc 47 T1] [toy_att_sig; toy_att_sig] toy_att_root) as (agg & Ha & _).
    + discriminate.
    + repeat constructor.
    + constructor; [exact Hs|constructor; [exact Hs|constructor]].
    + rewrite Ha. reflexivity.
  - vm_compute. discriminate.
Qed.

Print Assumptions C69_sign_verify.
Print Assumptions C69_unique.
Print Assumptions C69_other_message.
Print Assumptions C69_aggregate_one_message.
Print Assumptions C69_aggregate_messages.
Print Assumptions C69_aggregate_key.
Print Assumptions C69_order.
Print Assumptions C69_empty.
Print Assumptions C69_signed_data.
Print Assumptions C69_attestation_accepted.
Print Assumptions C69_builder_domain.
