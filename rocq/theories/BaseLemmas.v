(** * Lemmas about Base (proof file; no model definitions) *)
From Verif Require Import Base.
From Coq Require Import Permutation Sorted SetoidList.

(** ** Booleans *)
Lemma bytes_eqb_true a b : bytes_eqb a b = true <-> a = b.
Proof. unfold bytes_eqb; destruct (list_eq_dec _ _ _); intuition congruence. Qed.

(** ** Monads *)
Lemma rbind_ok_inv {A B} (m : res A) (f : A -> res B) b :
  rbind m f = Ok b -> exists a, m = Ok a /\ f a = Ok b.
Proof. destruct m; simpl; intros H; try discriminate; eauto. Qed.

Lemma rbind_assoc {A B C} (m : res A) (f : A -> res B) (g : B -> res C) :
  rbind (rbind m f) g = rbind m (fun a => rbind (f a) g).
Proof. destruct m; reflexivity. Qed.

Lemma sbind_assoc {S A B C} (m : St S A) (f : A -> St S B) (g : B -> St S C) s :
  sbind (sbind m f) g s = sbind m (fun a => sbind (f a) g) s.
Proof. unfold sbind. destruct (m s) as [[] ?]; reflexivity. Qed.

Lemma sbind_ok {S A B} (m : St S A) (f : A -> St S B) s a s' :
  m s = (Ok a, s') -> sbind m f s = f a s'.
Proof. intros H; unfold sbind; rewrite H; reflexivity. Qed.

Lemma sbind_ok_inv {S A B} (m : St S A) (f : A -> St S B) s b s' :
  sbind m f s = (Ok b, s') -> exists a s1, m s = (Ok a, s1) /\ f a s1 = (Ok b, s').
Proof. unfold sbind. destruct (m s) as [[a|e| |] s1]; intros H; try discriminate. eauto. Qed.

Lemma ok_or_ok {A} (o : option A) e a : ok_or o e = Ok a <-> o = Some a.
Proof. destruct o; simpl; split; congruence. Qed.
Lemma expect_ok {A} (o : option A) a : expect o = Ok a <-> o = Some a.
Proof. destruct o; simpl; split; congruence. Qed.
Lemma require_ok c e u : require c e = Ok u <-> c = true.
Proof. destruct c, u; simpl; split; congruence. Qed.

(** ** Machine arithmetic *)
Lemma U64_val : U64 = 18446744073709551616. Proof. reflexivity. Qed.
Lemma U64_MAX_val : U64_MAX = 18446744073709551615. Proof. reflexivity. Qed.

Lemma uadd_ok c x y : x + y < U64 -> uadd c x y = Ok (x + y).
Proof. intros H; unfold uadd. destruct (N.ltb_spec (x + y) U64); [reflexivity|lia]. Qed.
Lemma usub_ok c x y : y <= x -> usub c x y = Ok (x - y).
Proof. intros H; unfold usub. destruct (N.leb_spec y x); [reflexivity|lia]. Qed.
Lemma umul_ok c x y : x * y < U64 -> umul c x y = Ok (x * y).
Proof. intros H; unfold umul. destruct (N.ltb_spec (x * y) U64); [reflexivity|lia]. Qed.
Lemma udiv_ok x y : y <> 0 -> udiv x y = Ok (x / y).
Proof. intros H; unfold udiv. destruct (N.eqb_spec y 0); [congruence|reflexivity]. Qed.
Lemma umod_ok x y : y <> 0 -> umod x y = Ok (x mod y).
Proof. intros H; unfold umod. destruct (N.eqb_spec y 0); [congruence|reflexivity]. Qed.
Lemma cadd_some x y z : cadd x y = Some z <-> x + y < U64 /\ z = x + y.
Proof. unfold cadd. destruct (N.ltb_spec (x + y) U64); intuition (try congruence; try lia). Qed.
Lemma cadd_ok x y : x + y < U64 -> cadd x y = Some (x + y).
Proof. intros H; apply cadd_some; auto. Qed.
Lemma cadd_none x y : cadd x y = None <-> U64 <= x + y.
Proof. unfold cadd. destruct (N.ltb_spec (x + y) U64); intuition (try congruence; try lia). Qed.
Lemma csub_some x y z : csub x y = Some z <-> y <= x /\ z = x - y.
Proof. unfold csub. destruct (N.leb_spec y x); intuition (try congruence; try lia). Qed.
Lemma cmul_some x y z : cmul x y = Some z <-> x * y < U64 /\ z = x * y.
Proof. unfold cmul. destruct (N.ltb_spec (x * y) U64); intuition (try congruence; try lia). Qed.

(** ** Indexed lists *)
Lemma lenN_nil {A} : lenN (@nil A) = 0. Proof. reflexivity. Qed.
Lemma lenN_cons {A} (x : A) l : lenN (x :: l) = lenN l + 1.
Proof. unfold lenN; cbn [length]; lia. Qed.
Lemma lenN_app {A} (l k : list A) : lenN (l ++ k) = lenN l + lenN k.
Proof. unfold lenN; rewrite app_length; lia. Qed.
Lemma lenN_map {A B} (f : A -> B) l : lenN (map f l) = lenN l.
Proof. unfold lenN; rewrite map_length; reflexivity. Qed.
Lemma lenN_0 {A} (l : list A) : lenN l = 0 <-> l = [].
Proof. destruct l; [unfold lenN; simpl; split; reflexivity|]. rewrite lenN_cons. split; [lia|discriminate]. Qed.

Lemma nthN_nth_error {A} (l : list A) i : nthN l i = nth_error l (N.to_nat i).
Proof.
  revert i; induction l as [|x l IH]; intros i; cbn [nthN].
  - destruct (N.to_nat i); reflexivity.
  - destruct (N.eqb_spec i 0) as [->|Hi]; [reflexivity|].
    rewrite IH. replace (N.to_nat i) with (S (N.to_nat (i - 1))) by lia. reflexivity.
Qed.

Lemma nthN_some {A} (l : list A) i x : nthN l i = Some x -> i < lenN l.
Proof.
  rewrite nthN_nth_error; intros H. assert (nth_error l (N.to_nat i) <> None) by congruence.
  apply nth_error_Some in H0. unfold lenN; lia.
Qed.
Lemma nthN_lt {A} (l : list A) i : i < lenN l -> exists x, nthN l i = Some x.
Proof.
  intros H. rewrite nthN_nth_error. destruct (nth_error l (N.to_nat i)) eqn:Hn; eauto.
  apply nth_error_None in Hn. unfold lenN in H; lia.
Qed.
Lemma nthN_none {A} (l : list A) i : nthN l i = None <-> lenN l <= i.
Proof. rewrite nthN_nth_error, nth_error_None. unfold lenN. lia. Qed.
Lemma nthN_In {A} (l : list A) i x : nthN l i = Some x -> In x l.
Proof. rewrite nthN_nth_error; apply nth_error_In. Qed.
Lemma In_nthN {A} (l : list A) x : In x l -> exists i, nthN l i = Some x.
Proof.
  intros H. apply In_nth_error in H as [n H]. exists (N.of_nat n).
  rewrite nthN_nth_error, Nat2N.id; exact H.
Qed.
Lemma nthN_map {A B} (f : A -> B) l i : nthN (map f l) i = option_map f (nthN l i).
Proof. rewrite !nthN_nth_error. apply nth_error_map. Qed.
Lemma nthN_app_l {A} (l k : list A) i : i < lenN l -> nthN (l ++ k) i = nthN l i.
Proof. intros H; rewrite !nthN_nth_error. apply nth_error_app1. unfold lenN in H; lia. Qed.
Lemma nthN_app_r {A} (l k : list A) i : lenN l <= i -> nthN (l ++ k) i = nthN k (i - lenN l).
Proof.
  intros H; rewrite !nthN_nth_error. unfold lenN in *. rewrite nth_error_app2 by lia. f_equal; lia.
Qed.
Lemma nthN_ext {A} (l k : list A) : (forall i, nthN l i = nthN k i) -> l = k.
Proof.
  revert k; induction l as [|x l IH]; intros [|y k] H; try reflexivity.
  - specialize (H 0); discriminate.
  - specialize (H 0); discriminate.
  - pose proof (H 0) as H0. cbn in H0. injection H0 as ->. f_equal. apply IH. intros i.
    specialize (H (i + 1)). cbn [nthN] in H. destruct (N.eqb_spec (i + 1) 0); [lia|].
    replace (i + 1 - 1) with i in H by lia. exact H.
Qed.
Lemma nthN_cons {A} (x : A) l i : nthN (x :: l) i = if i =? 0 then Some x else nthN l (i - 1).
Proof. reflexivity. Qed.
Lemma nthN_0 {A} (x : A) l : nthN (x :: l) 0 = Some x. Proof. reflexivity. Qed.
Lemma nthN_succ {A} (x : A) l i : nthN (x :: l) (i + 1) = nthN l i.
Proof. cbn [nthN]. destruct (N.eqb_spec (i + 1) 0); [lia|]. f_equal; lia. Qed.

Lemma lenN_updN {A} (l : list A) i a : lenN (updN l i a) = lenN l.
Proof.
  revert i; induction l as [|x l IH]; intros i; cbn [updN]; [reflexivity|].
  destruct (i =? 0); rewrite !lenN_cons; [reflexivity|rewrite IH; reflexivity].
Qed.
Lemma nthN_updN {A} (l : list A) i a j :
  nthN (updN l i a) j = if (j =? i) && (i <? lenN l) then Some a else nthN l j.
Proof.
  revert i j; induction l as [|x l IH]; intros i j; cbn [updN].
  - cbn [nthN]. rewrite lenN_nil. destruct (N.ltb_spec i 0); [lia|]. rewrite andb_false_r. reflexivity.
  - rewrite lenN_cons. destruct (N.eqb_spec i 0) as [->|Hi].
    + cbn [nthN]. destruct (N.eqb_spec j 0).
      * destruct (N.ltb_spec 0 (lenN l + 1)); [reflexivity|lia].
      * reflexivity.
    + cbn [nthN]. destruct (N.eqb_spec j 0) as [->|Hj].
      * destruct (N.eqb_spec 0 i); [lia|reflexivity].
      * rewrite IH. replace (j - 1 =? i - 1) with (j =? i).
        { replace (i - 1 <? lenN l) with (i <? lenN l + 1); [reflexivity|].
          destruct (N.ltb_spec i (lenN l + 1)), (N.ltb_spec (i - 1) (lenN l)); lia. }
        destruct (N.eqb_spec j i), (N.eqb_spec (j - 1) (i - 1)); lia.
Qed.
Lemma nthN_updN_eq {A} (l : list A) i a : i < lenN l -> nthN (updN l i a) i = Some a.
Proof. intros H. rewrite nthN_updN, N.eqb_refl. destruct (N.ltb_spec i (lenN l)); [reflexivity|lia]. Qed.
Lemma nthN_updN_ne {A} (l : list A) i j a : i <> j -> nthN (updN l i a) j = nthN l j.
Proof. intros H. rewrite nthN_updN. destruct (N.eqb_spec j i); [congruence|reflexivity]. Qed.
Lemma updN_id {A} (l : list A) i a : nthN l i = Some a -> updN l i a = l.
Proof.
  intros H. apply nthN_ext. intros j. rewrite nthN_updN.
  destruct (N.eqb_spec j i) as [->|]; [|reflexivity]. rewrite H. destruct (i <? lenN l); reflexivity.
Qed.
Lemma updN_updN {A} (l : list A) i a b : updN (updN l i a) i b = updN l i b.
Proof.
  apply nthN_ext. intros j. rewrite !nthN_updN, lenN_updN.
  destruct (j =? i), (i <? lenN l); reflexivity.
Qed.
Lemma updN_oob {A} (l : list A) i a : lenN l <= i -> updN l i a = l.
Proof.
  intros H. apply nthN_ext. intros j. rewrite nthN_updN. destruct (N.ltb_spec i (lenN l)); [lia|].
  rewrite andb_false_r. reflexivity.
Qed.
Lemma updN_comm {A} (l : list A) i j a b : i <> j -> updN (updN l i a) j b = updN (updN l j b) i a.
Proof.
  intros H. apply nthN_ext. intros k. rewrite !nthN_updN, !lenN_updN.
  destruct (N.eqb_spec k i), (N.eqb_spec k j); subst; cbn [andb]; try congruence; reflexivity.
Qed.
Lemma map_updN {A B} (f : A -> B) l i a : map f (updN l i a) = updN (map f l) i (f a).
Proof. apply nthN_ext. intros j. rewrite nthN_map, !nthN_updN, nthN_map, lenN_map. destruct (_ && _); reflexivity. Qed.

Lemma idx_ok {A} (l : list A) i x : idx l i = Ok x <-> nthN l i = Some x.
Proof. apply expect_ok. Qed.
Lemma idx_lt {A} (l : list A) i : i < lenN l -> exists x, idx l i = Ok x.
Proof. intros H; destruct (nthN_lt l i H) as [x Hx]; exists x; apply idx_ok; exact Hx. Qed.
Lemma getN_ok {A} (l : list A) i e x : getN l i e = Ok x <-> nthN l i = Some x.
Proof. apply ok_or_ok. Qed.

Lemma length_seqN s n : length (seqN s n) = n.
Proof. revert s; induction n as [|n IH]; intros s; cbn [seqN length]; [reflexivity|rewrite IH; reflexivity]. Qed.
Lemma lenN_seqN s n : lenN (seqN s n) = N.of_nat n.
Proof. unfold lenN; rewrite length_seqN; reflexivity. Qed.
Lemma lenN_rangeN n : lenN (rangeN n) = n.
Proof. unfold rangeN; rewrite lenN_seqN; lia. Qed.
Lemma In_seqN s n x : In x (seqN s n) <-> s <= x < s + N.of_nat n.
Proof.
  revert s; induction n as [|n IH]; intros s; cbn [seqN In]; [lia|]. rewrite IH. lia.
Qed.
Lemma In_rangeN n x : In x (rangeN n) <-> x < n.
Proof. unfold rangeN; rewrite In_seqN; lia. Qed.
Lemma nthN_seqN s n i : i < N.of_nat n -> nthN (seqN s n) i = Some (s + i).
Proof.
  revert s i; induction n as [|n IH]; intros s i H; [lia|]. cbn [seqN nthN].
  destruct (N.eqb_spec i 0) as [->|Hi]; [f_equal; lia|]. rewrite IH by lia. f_equal; lia.
Qed.
Lemma nthN_rangeN n i : i < n -> nthN (rangeN n) i = Some i.
Proof. intros H. unfold rangeN. rewrite nthN_seqN by lia. f_equal; lia. Qed.
Lemma NoDup_seqN s n : NoDup (seqN s n).
Proof.
  revert s; induction n as [|n IH]; intros s; cbn [seqN]; constructor; auto. rewrite In_seqN; lia.
Qed.
Lemma NoDup_rangeN n : NoDup (rangeN n). Proof. apply NoDup_seqN. Qed.
Lemma seqN_app s n m : seqN s (n + m) = seqN s n ++ seqN (s + N.of_nat n) m.
Proof.
  revert s; induction n as [|n IH]; intros s; cbn [seqN Nat.add app].
  - f_equal; lia.
  - f_equal. rewrite IH. do 2 f_equal. lia.
Qed.
Lemma rangeN_succ n : rangeN (n + 1) = rangeN n ++ [n].
Proof.
  unfold rangeN. replace (N.to_nat (n + 1)) with (N.to_nat n + 1)%nat by lia. rewrite seqN_app.
  cbn [seqN]. do 2 f_equal. lia.
Qed.
Lemma rangeN_0 : rangeN 0 = []. Proof. reflexivity. Qed.

(** ** folds *)
Lemma rfold_app {A B} (f : B -> A -> res B) l k b :
  rfold f (l ++ k) b = rbind (rfold f l b) (rfold f k).
Proof.
  revert b; induction l as [|x l IH]; intros b; cbn [rfold app rbind]; [reflexivity|].
  rewrite rbind_assoc. destruct (f b x); cbn [rbind]; auto.
Qed.

(** A fold whose every step succeeds with a pure step is the pure fold *)
Lemma rfold_pure {A B} (f : B -> A -> res B) (g : B -> A -> B) (P : B -> Prop) l b :
  P b -> (forall b x, In x l -> P b -> f b x = Ok (g b x) /\ P (g b x)) ->
  rfold f l b = Ok (fold_left g l b) /\ P (fold_left g l b).
Proof.
  revert b; induction l as [|x l IH]; intros b Hb H; cbn [rfold fold_left]; [auto|].
  destruct (H b x (or_introl eq_refl) Hb) as [-> Hp]. cbn [rbind]. apply IH; [exact Hp|].
  intros; apply H; [right; assumption|assumption].
Qed.

Lemma rmap_ok {A B} (f : A -> res B) l ys :
  rmap f l = Ok ys <-> Forall2 (fun x y => f x = Ok y) l ys.
Proof.
  revert ys; induction l as [|x l IH]; intros ys; cbn [rmap].
  - split; [intros [= <-]; constructor|intros H; inversion H; reflexivity].
  - split.
    + intros H. apply rbind_ok_inv in H as [y [Hy H]]. apply rbind_ok_inv in H as [ys' [Hys H]].
      injection H as <-. constructor; [exact Hy|]. apply IH; exact Hys.
    + intros H; inversion H as [|? y ? ys' Hy Hys]; subst. rewrite Hy. cbn [rbind].
      apply IH in Hys. rewrite Hys. reflexivity.
Qed.
Lemma rmap_pure {A B} (f : A -> res B) (g : A -> B) l :
  (forall x, In x l -> f x = Ok (g x)) -> rmap f l = Ok (map g l).
Proof.
  induction l as [|x l IH]; intros H; cbn [rmap map]; [reflexivity|].
  rewrite (H x) by (left; reflexivity). cbn [rbind]. rewrite IH; [reflexivity|]. intros; apply H; right; assumption.
Qed.

Lemma Forall2_len {A B} (R : A -> B -> Prop) l k : Forall2 R l k -> lenN l = lenN k.
Proof. induction 1; rewrite ?lenN_cons; [reflexivity|lia]. Qed.

(** ** sums *)
Lemma sumN_app l k : sumN (l ++ k) = sumN l + sumN k.
Proof. induction l as [|x l IH]; cbn [app sumN fold_right]; [unfold sumN; simpl; lia|]. unfold sumN in *; simpl. lia. Qed.
Lemma sumN_cons x l : sumN (x :: l) = x + sumN l. Proof. reflexivity. Qed.
Lemma sumN_perm l k : Permutation l k -> sumN l = sumN k.
Proof. induction 1; rewrite ?sumN_cons in *; try lia; reflexivity. Qed.

(** ** little endian *)
Lemma length_to_le n x : length (to_le n x) = n.
Proof. revert x; induction n as [|n IH]; intros x; cbn [to_le length]; auto. Qed.
Lemma to_le_bytes n x : Forall (fun b => b < 256) (to_le n x).
Proof. revert x; induction n as [|n IH]; intros x; cbn [to_le]; constructor; auto. lia. Qed.
Lemma of_le_to_le n x : of_le (to_le n x) = x mod 256 ^ N.of_nat n.
Proof.
  revert x; induction n as [|n IH]; intros x; cbn [to_le of_le].
  - change (256 ^ N.of_nat 0) with 1. lia.
  - rewrite IH. replace (N.of_nat (S n)) with (N.succ (N.of_nat n)) by lia. rewrite N.pow_succ_r by lia.
    rewrite N.mod_mul_r; [reflexivity|lia|]. apply N.pow_nonzero; lia.
Qed.
Lemma of_le_to_le_id n x : x < 256 ^ N.of_nat n -> of_le (to_le n x) = x.
Proof. intros H; rewrite of_le_to_le. apply N.mod_small; exact H. Qed.
Lemma to_le_of_le l : Forall (fun b => b < 256) l -> to_le (length l) (of_le l) = l.
Proof.
  induction 1 as [|b l Hb Hl IH]; cbn [length to_le of_le]; [reflexivity|].
  f_equal; [lia|]. replace ((b + 256 * of_le l) / 256) with (of_le l) by lia. exact IH.
Qed.
Lemma of_le_bound l : Forall (fun b => b < 256) l -> of_le l < 256 ^ lenN l.
Proof.
  induction 1 as [|b l Hb Hl IH]; cbn [of_le].
  - reflexivity.
  - rewrite lenN_cons, N.add_1_r, N.pow_succ_r by lia. nia.
Qed.
Lemma to_le_inj n x y : x < 256 ^ N.of_nat n -> y < 256 ^ N.of_nat n -> to_le n x = to_le n y -> x = y.
Proof. intros Hx Hy H. rewrite <- (of_le_to_le_id n x Hx), <- (of_le_to_le_id n y Hy), H. reflexivity. Qed.

(** ** membership, deduplication, sorting *)
Lemma memN_true x l : memN x l = true <-> In x l.
Proof.
  unfold memN. rewrite existsb_exists. split.
  - intros [y [Hy He]]. apply N.eqb_eq in He. subst; exact Hy.
  - intros H; exists x; split; [exact H|apply N.eqb_refl].
Qed.
Lemma memN_false x l : memN x l = false <-> ~ In x l.
Proof. rewrite <- memN_true. destruct (memN x l); intuition congruence. Qed.
Lemma In_dedupN x l : In x (dedupN l) <-> In x l.
Proof.
  induction l as [|y l IH]; cbn [dedupN]; [tauto|].
  destruct (memN y l) eqn:Hm.
  - rewrite IH. apply memN_true in Hm. simpl. split; [auto|intros [<-|H]; auto].
  - simpl. rewrite IH. tauto.
Qed.
Lemma NoDup_dedupN l : NoDup (dedupN l).
Proof.
  induction l as [|y l IH]; cbn [dedupN]; [constructor|]. destruct (memN y l) eqn:Hm; [exact IH|].
  constructor; [|exact IH]. rewrite In_dedupN. apply memN_false; exact Hm.
Qed.
Lemma dedupN_id l : NoDup l -> dedupN l = l.
Proof.
  induction 1 as [|y l Hy Hl IH]; cbn [dedupN]; [reflexivity|].
  apply memN_false in Hy. rewrite Hy, IH. reflexivity.
Qed.

Lemma insert_sorted_perm x l : Permutation (x :: l) (insert_sorted x l).
Proof.
  induction l as [|y l IH]; cbn [insert_sorted]; [reflexivity|].
  destruct (x <=? y); [reflexivity|]. rewrite perm_swap. constructor. exact IH.
Qed.
Lemma isort_perm l : Permutation l (isort l).
Proof. induction l as [|x l IH]; cbn [isort]; [reflexivity|]. rewrite <- insert_sorted_perm. constructor; exact IH. Qed.
Lemma insert_sorted_sorted x l : StronglySorted N.le l -> StronglySorted N.le (insert_sorted x l).
Proof.
  induction 1 as [|y l Hl IH Hy]; cbn [insert_sorted].
  - repeat constructor.
  - destruct (N.leb_spec x y).
    + constructor; [constructor; assumption|]. constructor; [assumption|].
      eapply Forall_impl; [|exact Hy]. simpl; intros; lia.
    + constructor; [exact IH|]. rewrite <- (insert_sorted_perm x l). constructor; [lia|exact Hy].
Qed.
Lemma isort_sorted l : StronglySorted N.le (isort l).
Proof. induction l; cbn [isort]; [constructor|]. apply insert_sorted_sorted; assumption. Qed.
Lemma StronglySorted_le_lt l : NoDup l -> StronglySorted N.le l -> StronglySorted N.lt l.
Proof.
  induction l as [|x l IH]; intros Hn Hs; [constructor|]. inversion Hn; inversion Hs; subst.
  constructor; [auto|]. rewrite Forall_forall in *. intros y Hy. specialize (H6 y Hy).
  assert (x <> y) by (intros ->; contradiction). lia.
Qed.
Lemma isort_strict l : NoDup l -> StronglySorted N.lt (isort l).
Proof.
  intros H. apply StronglySorted_le_lt; [|apply isort_sorted]. eapply Permutation_NoDup; [apply isort_perm|exact H].
Qed.
Lemma In_isort x l : In x (isort l) <-> In x l.
Proof.
  split; intros H; eapply Permutation_in; try exact H; [symmetry|]; apply isort_perm.
Qed.
Lemma lenN_isort l : lenN (isort l) = lenN l.
Proof. unfold lenN. rewrite <- (Permutation_length (isort_perm l)). reflexivity. Qed.
