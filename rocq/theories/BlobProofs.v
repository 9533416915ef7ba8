(** * Lemmas about blob packing *)
From Verif Require Import Base BaseLemmas StLemmas Blobs SpecBlobs.

(** ** lists *)
Lemma lenN_firstN {A} n (l : list A) : lenN (firstN n l) = N.min n (lenN l).
Proof. unfold lenN, firstN. rewrite firstn_length. lia. Qed.
Lemma lenN_skipN {A} n (l : list A) : lenN (skipN n l) = lenN l - n.
Proof. unfold lenN, skipN. rewrite skipn_length. lia. Qed.
Lemma lenN_repeatN {A} (a : A) n : lenN (repeatN a n) = n.
Proof. unfold lenN, repeatN. rewrite repeat_length. lia. Qed.
Lemma firstN_all {A} n (l : list A) : lenN l <= n -> firstN n l = l.
Proof. intros H. apply firstn_all2. unfold lenN in H. lia. Qed.
Lemma skipN_all {A} n (l : list A) : lenN l <= n -> skipN n l = [].
Proof. intros H. apply skipn_all2. unfold lenN in H. lia. Qed.
Lemma firstN_0 {A} (l : list A) : firstN 0 l = []. Proof. reflexivity. Qed.
Lemma skipN_0 {A} (l : list A) : skipN 0 l = l. Proof. reflexivity. Qed.
Lemma firstN_skipN {A} n (l : list A) : firstN n l ++ skipN n l = l.
Proof. apply firstn_skipn. Qed.
Lemma firstN_app {A} n (l k : list A) : firstN n (l ++ k) = firstN n l ++ firstN (n - lenN l) k.
Proof. unfold firstN. rewrite firstn_app. f_equal. f_equal. unfold lenN. lia. Qed.
Lemma skipN_app {A} n (l k : list A) : skipN n (l ++ k) = skipN n l ++ skipN (n - lenN l) k.
Proof. unfold skipN. rewrite skipn_app. f_equal. f_equal. unfold lenN. lia. Qed.
Lemma firstN_app_exact {A} n (l k : list A) : lenN l = n -> firstN n (l ++ k) = l.
Proof. intros <-. rewrite firstN_app, N.sub_diag, firstN_0, app_nil_r. apply firstN_all. lia. Qed.
Lemma skipN_app_exact {A} n (l k : list A) : lenN l = n -> skipN n (l ++ k) = k.
Proof. intros <-. rewrite skipN_app, N.sub_diag, skipN_0, skipN_all by lia. reflexivity. Qed.
Lemma skipN_skipN {A} n m (l : list A) : skipN n (skipN m l) = skipN (n + m) l.
Proof.
  unfold skipN. rewrite Nnat.N2Nat.inj_add, Nat.add_comm. generalize (N.to_nat n) (N.to_nat m). clear. intros n m. revert l.
  induction m as [|m IH]; intros l; [reflexivity|]. destruct l; [destruct n; reflexivity|]. cbn. apply IH.
Qed.
Lemma skipN_repeatN {A} (a : A) n m : skipN n (repeatN a m) = repeatN a (m - n).
Proof.
  unfold skipN, repeatN. replace (N.to_nat (m - n)) with (N.to_nat m - N.to_nat n)%nat by lia. generalize (N.to_nat n) (N.to_nat m). clear.
  induction n; intros [|m]; cbn; auto. 
Qed.
Lemma repeatN_add {A} (a : A) n m : repeatN a (n + m) = repeatN a n ++ repeatN a m.
Proof. unfold repeatN. rewrite Nnat.N2Nat.inj_add. apply repeat_app. Qed.
Lemma repeatN_0 {A} (a : A) : repeatN a 0 = []. Proof. reflexivity. Qed.
Lemma firstN_repeatN {A} (a : A) n m : firstN n (repeatN a m) = repeatN a (N.min n m).
Proof.
  unfold firstN, repeatN. replace (N.to_nat (N.min n m)) with (Nat.min (N.to_nat n) (N.to_nat m)) by lia. generalize (N.to_nat n) (N.to_nat m). clear.
  induction n; intros [|m]; cbn; auto. f_equal. apply IHn.
Qed.

Lemma pow_lenN_cons {A} n (x : A) l : n ^ lenN (x :: l) = n * n ^ lenN l.
Proof. rewrite lenN_cons, N.add_1_r. apply N.pow_succ_r'. Qed.

(** ** bits *)
Lemma bits_byte_bits b : b < 256 -> bits_byte (byte_bits b) = b.
Proof.
  intros H. assert (Hall : forallb (fun n => bits_byte (byte_bits n) =? n) (map N.of_nat (seq 0 256)) = true) by (vm_compute; reflexivity).
  rewrite forallb_forall in Hall. apply N.eqb_eq. apply Hall. apply in_map_iff. exists (N.to_nat b). split; [lia|]. apply in_seq. lia.
Qed.
Lemma byte_bits_byte l : length l = 8%nat -> byte_bits (bits_byte l) = l.
Proof.
  intros H. do 8 (destruct l as [|? l]; [discriminate H|]). destruct l; [|discriminate H].
  repeat match goal with b : bool |- _ => destruct b end; reflexivity.
Qed.
Lemma lenN_view l : lenN (view_bits l) = 8 * lenN l.
Proof. induction l as [|b l IH]; [reflexivity|]. change (view_bits (b :: l)) with (byte_bits b ++ view_bits l). rewrite lenN_app, IH, lenN_cons. change (lenN (byte_bits b)) with 8. lia. Qed.
Lemma view_app l k : view_bits (l ++ k) = view_bits l ++ view_bits k.
Proof. apply flat_map_app. Qed.
Lemma view_zeros n : view_bits (repeatN 0 n) = repeatN false (8 * n).
Proof.
  unfold repeatN. replace (N.to_nat (8 * n)) with (8 * N.to_nat n)%nat by lia. generalize (N.to_nat n). clear. induction n as [|n IH]; [reflexivity|].
  cbn [repeat]. change (view_bits (0 :: repeat 0 n)) with (repeat false 8 ++ view_bits (repeat 0 n)). rewrite IH, <- repeat_app. f_equal. lia.
Qed.
Lemma bits_bytes_view l k : Forall (fun x => x < 256) l -> bits_bytes (length l) (view_bits l ++ k) = l.
Proof.
  intros H. induction H as [|b l Hb _ IH]; [reflexivity|]. cbn [length bits_bytes].
  change (view_bits (b :: l) ++ k) with ((byte_bits b ++ view_bits l) ++ k). rewrite <- app_assoc.
  rewrite firstn_app. change (length (byte_bits b)) with 8%nat. rewrite Nat.sub_diag. change (firstn 8 (byte_bits b)) with (byte_bits b). cbn [firstn]. rewrite app_nil_r, bits_byte_bits by exact Hb.
  rewrite skipn_app. change (length (byte_bits b)) with 8%nat. rewrite Nat.sub_diag. change (skipn 8 (byte_bits b)) with (@nil bool). cbn [skipn app]. rewrite IH. reflexivity.
Qed.
Lemma view_bits_bytes n : forall l, length l = (8 * n)%nat -> view_bits (bits_bytes n l) = l.
Proof.
  induction n as [|n IH]; intros l H; [destruct l; [reflexivity|discriminate H]|]. cbn [bits_bytes].
  change (view_bits (?x :: ?y)) with (byte_bits x ++ view_bits y). rewrite byte_bits_byte by (rewrite firstn_length; lia). rewrite IH by (rewrite skipn_length; lia). apply firstn_skipn.
Qed.
Lemma bits_bytes_len n : forall l, length (bits_bytes n l) = n.
Proof. induction n; intros l; cbn; auto. Qed.
Lemma bits_val_bound l : forall a, fold_left (fun a (b : bool) => 2 * a + (if b then 1 else 0)) l a < 2 ^ lenN l * (a + 1).
Proof.
  induction l as [|b l IH]; intros a; [cbn [fold_left]; change (2 ^ lenN (@nil bool)) with 1; lia|]. cbn [fold_left]. specialize (IH (2 * a + (if b then 1 else 0))). eapply N.lt_le_trans; [exact IH|].
  rewrite pow_lenN_cons. destruct b; nia.
Qed.
Lemma bits_bytes_range n : forall l, Forall (fun x => x < 256) (bits_bytes n l).
Proof.
  induction n as [|n IH]; intros l; constructor; [|apply IH]. pose proof (bits_val_bound (firstn 8 l) 0) as H. unfold bits_byte. eapply N.lt_le_trans; [exact H|].
  rewrite N.mul_1_r. change 256 with (2 ^ 8). apply N.pow_le_mono_r; [lia|]. unfold lenN. rewrite firstn_length. lia.
Qed.
Lemma bits_val_acc l : forall a, fold_left (fun a (b : bool) => 2 * a + (if b then 1 else 0)) l a = a * 2 ^ lenN l + bits_byte l.
Proof.
  unfold bits_byte. induction l as [|b l IH]; intros a; [cbn [fold_left]; change (2 ^ lenN (@nil bool)) with 1; lia|]. cbn [fold_left]. rewrite IH, (IH (2 * 0 + _)), pow_lenN_cons. lia.
Qed.
Lemma be_value_acc l : forall a, fold_left (fun a b => 256 * a + b) l a = a * 256 ^ lenN l + be_value l.
Proof.
  unfold be_value. induction l as [|b l IH]; intros a; [cbn [fold_left]; change (256 ^ lenN (@nil N)) with 1; lia|]. cbn [fold_left]. rewrite IH, (IH (256 * 0 + _)), pow_lenN_cons. lia.
Qed.
Lemma of_be_value l : of_be l = be_value l.
Proof.
  unfold of_be. induction l as [|b l IH]; [reflexivity|]. cbn [rev]. unfold be_value. cbn [fold_left]. rewrite be_value_acc, <- IH. clear IH.
  assert (H : forall x y, of_le (x ++ [y]) = of_le x + 256 ^ lenN x * y).
  { induction x as [|u x IH]; intros y; [cbn [app of_le]; change (256 ^ lenN (@nil N)) with 1; lia|]. cbn [app of_le]. rewrite IH, pow_lenN_cons. lia. }
  rewrite H. replace (lenN (rev l)) with (lenN l) by (unfold lenN; rewrite rev_length; reflexivity). lia.
Qed.
Lemma be_value_bits n : forall l, length l = (8 * n)%nat -> be_value (bits_bytes n l) = bits_byte l.
Proof.
  induction n as [|n IH]; intros l H; [destruct l; [reflexivity|discriminate H]|]. cbn [bits_bytes]. unfold be_value. cbn [fold_left]. rewrite be_value_acc, IH by (rewrite skipn_length; lia).
  assert (Hs : bits_byte l = bits_byte (firstn 8 l) * 2 ^ lenN (skipn 8 l) + bits_byte (skipn 8 l)).
  { rewrite <- (firstn_skipn 8 l) at 1. unfold bits_byte at 1. rewrite fold_left_app, bits_val_acc. reflexivity. }
  rewrite Hs. f_equal.
  replace (256 * 0 + bits_byte (firstn 8 l)) with (bits_byte (firstn 8 l)) by lia. f_equal. unfold lenN. rewrite bits_bytes_len, skipn_length, H.
  replace (N.of_nat (8 * S n - 8)) with (8 * N.of_nat n) by lia. rewrite N.pow_mul_r. reflexivity.
Qed.

(** ** field elements *)
Definition fe_bits (src : list bool) : list bool := false :: false :: src ++ repeatN false (254 - lenN src).
Definition fe (src : list bool) : bytes := bits_bytes (N.to_nat 32) (fe_bits src).
Lemma fe_bits_len src : lenN src <= 254 -> length (fe_bits src) = (8 * N.to_nat 32)%nat.
Proof. intros H. unfold fe_bits. cbn [length]. rewrite app_length. pose proof (lenN_repeatN false (254 - lenN src)). unfold lenN in *. lia. Qed.
Lemma fe_value src : lenN src <= 254 -> be_value (fe src) < 2 ^ 254.
Proof.
  intros H. unfold fe. rewrite be_value_bits by (apply fe_bits_len; exact H). unfold fe_bits, bits_byte. cbn [fold_left]. change (2 * (2 * 0 + 0) + 0) with 0.
  pose proof (bits_val_bound (src ++ repeatN false (254 - lenN src)) 0) as Hb. rewrite lenN_app, lenN_repeatN in Hb. replace (lenN src + (254 - lenN src)) with 254 in Hb by lia. lia.
Qed.
Lemma fe_len src : lenN (fe src) = 32.
Proof. unfold fe, lenN. rewrite bits_bytes_len. lia. Qed.
Lemma fe_view src : lenN src <= 254 -> view_bits (fe src) = fe_bits src.
Proof. intros H. apply view_bits_bytes. apply fe_bits_len. exact H. Qed.
Lemma fe_range src : Forall (fun x => x < 256) (fe src).
Proof. apply bits_bytes_range. Qed.
Lemma field_element_run src : lenN src <= 254 -> field_element_from_bits src = Ok (fe src).
Proof.
  intros H. unfold field_element_from_bits, copy_bits, BYTES_PER_FIELD_ELEMENT. rewrite view_zeros, lenN_repeatN. change (8 * 32) with 256.
  replace (2 + lenN src <=? 256) with true by lia. cbn [rbind]. rewrite firstN_repeatN, skipN_repeatN. change (N.min 2 256) with 2. change (repeatN false 2) with [false; false].
  replace (256 - (2 + lenN src)) with (254 - lenN src) by lia. change ([false; false] ++ src ++ repeatN false (254 - lenN src)) with (fe_bits src). fold (fe src).
  rewrite of_be_value. replace (be_value (fe src) <? BLS_MODULUS) with true; [reflexivity|]. symmetry. apply N.ltb_lt. eapply N.lt_trans; [apply fe_value; exact H|reflexivity].
Qed.

(** ** chunks *)
Lemma chunks_concat {A} n (l : list A) : forall k, concat (chunks k n l) = firstN (N.of_nat k * n) l.
Proof.
  intros k. revert l. induction k as [|k IH]; intros l; [reflexivity|]. cbn [chunks concat]. rewrite IH.
  replace (N.of_nat (S k) * n) with (n + N.of_nat k * n) by lia. unfold firstN, skipN. replace (N.to_nat (n + N.of_nat k * n)) with (N.to_nat n + N.to_nat (N.of_nat k * n))%nat by lia.
  generalize (N.to_nat n) (N.to_nat (N.of_nat k * n)). clear. intros a b. revert l. induction a as [|a IH]; intros l; [reflexivity|]. destruct l; [destruct b; reflexivity|]. cbn. f_equal. apply IH.
Qed.
Lemma chunks_len {A} n (l : list A) : forall k, N.of_nat k * n <= lenN l -> Forall (fun c => lenN c = n) (chunks k n l).
Proof.
  intros k. revert l. induction k as [|k IH]; intros l H; constructor.
  - rewrite lenN_firstN. nia.
  - apply IH. rewrite lenN_skipN. nia.
Qed.
Lemma chunks_count {A} n (l : list A) : forall k, length (chunks k n l) = k.
Proof. intros k. revert l. induction k; intros l; cbn; auto. Qed.
Lemma chunks_of_concat {A} n (ws : list (list A)) : Forall (fun w => lenN w = n) ws -> chunks (length ws) n (concat ws) = ws.
Proof. intros H. induction H as [|w ws Hw _ IH]; [reflexivity|]. cbn [length chunks concat]. rewrite firstN_app_exact, skipN_app_exact, IH by exact Hw. reflexivity. Qed.
Lemma concat_len {A} n (ws : list (list A)) : Forall (fun w => lenN w = n) ws -> lenN (concat ws) = n * lenN ws.
Proof. intros H. induction H as [|w ws Hw _ IH]; [change (lenN (@nil (list A))) with 0; cbn [concat]; rewrite lenN_nil; lia|]. cbn [concat]. rewrite lenN_app, IH, Hw, lenN_cons. lia. Qed.
Lemma chunks_exact_concat {A} n (ws : list (list A)) : 0 < n -> Forall (fun w => lenN w = n) ws -> chunks_exact n (concat ws) = ws.
Proof.
  intros Hn H. unfold chunks_exact. rewrite (concat_len n ws H). replace (n * lenN ws / n) with (lenN ws) by (rewrite N.mul_comm, N.div_mul; lia).
  replace (N.to_nat (lenN ws)) with (length ws) by (unfold lenN; lia). apply chunks_of_concat. exact H.
Qed.

(** ** words of 32 bytes *)
Definition word (w : list N) : Prop := lenN w = 32 /\ Forall (fun x => x < 256) w /\ be_value w < FIELD_ORDER.
Lemma word_len ws : Forall word ws -> Forall (fun w => lenN w = 32) ws.
Proof. apply Forall_impl. intros w [H _]. exact H. Qed.
Lemma zero_word : word (repeatN 0 32).
Proof. split; [reflexivity|]. split; [apply Forall_forall; intros x Hx; apply repeat_spec in Hx; lia|reflexivity]. Qed.
Lemma fe_word src : lenN src <= 254 -> word (fe src).
Proof. intros H. split; [apply fe_len|]. split; [apply fe_range|]. eapply N.lt_trans; [apply fe_value; exact H|reflexivity]. Qed.
Lemma concat_firstN (ws : list (list N)) n : Forall (fun w => lenN w = 32) ws -> firstN (32 * n) (concat ws) = concat (firstN n ws).
Proof.
  intros H. pose proof (concat_len 32 ws H) as Hc. destruct (N.le_ge_cases (lenN ws) n) as [Hn|Hn]; [rewrite !firstN_all by lia; reflexivity|].
  rewrite <- (firstN_skipN n ws) at 1. rewrite concat_app. apply firstN_app_exact.
  rewrite (concat_len 32); [rewrite lenN_firstN; lia|]. rewrite <- (firstN_skipN n ws) in H. apply Forall_app in H. tauto.
Qed.
Lemma concat_zeros n : concat (repeatN (repeatN 0 32) n) = repeatN 0 (32 * n).
Proof.
  unfold repeatN at 1 3. replace (N.to_nat (32 * n)) with (32 * N.to_nat n)%nat by lia. generalize (N.to_nat n). clear. induction n as [|n IH]; [reflexivity|].
  cbn [repeat concat]. rewrite IH. unfold repeatN. rewrite <- repeat_app. f_equal. lia.
Qed.
Lemma resize_words elems ws : Forall (fun w => lenN w = 32) ws ->
  resize (blob_bytes elems) (concat ws) = concat (firstN elems ws ++ repeatN (repeatN 0 32) (elems - lenN ws)).
Proof.
  intros H. unfold resize, blob_bytes, BYTES_PER_FIELD_ELEMENT. rewrite concat_firstN by exact H. rewrite concat_app, concat_zeros, (concat_len 32) by exact H. f_equal. f_equal. lia.
Qed.
Lemma Forall_repeatN {A} (P : A -> Prop) a n : P a -> Forall P (repeatN a n).
Proof. intros H. apply Forall_forall. intros x Hx. apply repeat_spec in Hx. subst. exact H. Qed.

(** ** packing *)
Lemma pack_loop elems cs : 0 < elems -> Forall (fun c => lenN c = 254) cs -> forall wbl wbu,
  Forall (fun ws => lenN ws = elems) wbl -> lenN wbu <= elems -> Forall word wbu ->
  exists wbl' wbu', rfold (pack_step elems) cs (map (@concat N) wbl, concat wbu) = Ok (map (@concat N) wbl', concat wbu')
    /\ Forall (fun ws => lenN ws = elems) wbl' /\ lenN wbu' <= elems /\ Forall word wbu'
    /\ concat wbl' ++ wbu' = concat wbl ++ wbu ++ map fe cs /\ (wbu' = [] -> wbu = [] /\ cs = []).
Proof.
  intros He Hcs. induction Hcs as [|c cs Hc _ IH]; intros wbl wbu Hl Hu Hw.
  - exists wbl, wbu. cbn [rfold map]. rewrite app_nil_r. tauto.
  - cbn [rfold].
    assert (Hstep : pack_step elems (map (@concat N) wbl, concat wbu) c
      = if 32 * lenN wbu =? 32 * elems then Ok (map (@concat N) wbl ++ [concat wbu], fe c) else Ok (map (@concat N) wbl, concat wbu ++ fe c)).
    { unfold pack_step, blob_bytes, BYTES_PER_FIELD_ELEMENT, bytes. rewrite (concat_len 32) by (apply word_len; exact Hw).
      rewrite field_element_run by lia. destruct (32 * lenN wbu =? 32 * elems); reflexivity. }
    rewrite Hstep. clear Hstep. destruct (N.eqb_spec (32 * lenN wbu) (32 * elems)) as [Hf|Hf].
    + destruct (IH (wbl ++ [wbu]) [fe c]) as (wbl' & wbu' & Hr & H1 & H2 & H3 & H4 & H5).
      * apply Forall_app. split; [exact Hl|]. repeat constructor. lia.
      * change (lenN [fe c]) with 1. lia.
      * (constructor; [apply fe_word; lia|constructor]).
      * exists wbl', wbu'. cbn [rbind]. rewrite map_app in Hr. cbn [map concat] in Hr. rewrite app_nil_r in Hr. split; [exact Hr|].
        split; [exact H1|]. split; [exact H2|]. split; [exact H3|]. split; [|intros Hn; apply H5 in Hn as [Hn _]; discriminate Hn].
        rewrite H4, concat_app. cbn [concat map]. rewrite app_nil_r, <- !app_assoc. reflexivity.
    + destruct (IH wbl (wbu ++ [fe c])) as (wbl' & wbu' & Hr & H1 & H2 & H3 & H4 & H5).
      * exact Hl.
      * rewrite lenN_app. change (lenN [fe c]) with 1. lia.
      * apply Forall_app. split; [exact Hw|]. (constructor; [apply fe_word; lia|constructor]).
      * exists wbl', wbu'. cbn [rbind]. rewrite concat_app in Hr. cbn [concat] in Hr. rewrite app_nil_r in Hr. split; [exact Hr|].
        split; [exact H1|]. split; [exact H2|]. split; [exact H3|]. split; [|intros Hn; apply H5 in Hn as [Hn _]; destruct wbu; discriminate Hn].
        rewrite H4. cbn [map]. rewrite <- !app_assoc. reflexivity.
Qed.
(** the lengths (in list N) at which the last, incomplete field element no longer fits in its blob *)
Definition overfull (elems len : N) : Prop := 0 < 8 * len / 254 /\ (8 * len / 254) mod elems = 0 /\ 8 * len mod 254 <> 0.
Definition full_bits (data : list N) : list (list bool) := chunks_exact 254 (view_bits data).
Definition rest_bits (data : list N) : list bool := chunks_remainder 254 (view_bits data).
Lemma bits_split data : concat (full_bits data) ++ rest_bits data = view_bits data.
Proof.
  unfold full_bits, rest_bits, chunks_exact, chunks_remainder. rewrite chunks_concat. rewrite Nnat.N2Nat.id. rewrite (N.mul_comm 254). apply firstN_skipN.
Qed.
Lemma full_len data : Forall (fun c => lenN c = 254) (full_bits data).
Proof. apply chunks_len. rewrite Nnat.N2Nat.id. lia. Qed.
Lemma full_count data : lenN (full_bits data) = 8 * lenN data / 254.
Proof. unfold full_bits, chunks_exact, lenN at 1. rewrite chunks_count, lenN_view. lia. Qed.
Lemma rest_len data : lenN (rest_bits data) = 8 * lenN data mod 254.
Proof. unfold rest_bits, chunks_remainder. rewrite lenN_skipN, lenN_view. lia. Qed.
Lemma pack_run elems data : 0 < elems -> exists wblobs,
  pack_into_blobs elems data = Ok (map (@concat N) wblobs) /\ Forall (fun ws => lenN ws = elems) wblobs /\ Forall word (concat wblobs)
  /\ (lenN wblobs = 1 \/ elems * (lenN wblobs - 1) < lenN (full_bits data))
  /\ exists z, concat wblobs = map fe (full_bits data) ++ repeatN (repeatN 0 32) z /\ overfull elems (lenN data)
     \/ concat wblobs = map fe (full_bits data) ++ (match rest_bits data with [] => [] | r => [fe r] end) ++ repeatN (repeatN 0 32) z /\ ~ overfull elems (lenN data).
Proof.
  intros He. destruct (pack_loop elems (full_bits data) He (full_len data) [] []) as (wbl & wbu & Hr & Hl & Hu & Hw & Hcat & Hnil); [apply Forall_nil|apply N.le_0_l|apply Forall_nil|].
  unfold pack_into_blobs. change (chunks_exact BITS_PER_FIELD_ELEMENT (view_bits data)) with (full_bits data). change (chunks_remainder BITS_PER_FIELD_ELEMENT (view_bits data)) with (rest_bits data).
  change ([], []) with (map (@concat N) [], @concat N []). rewrite Hr. cbn [rbind].
  assert (Hdw : Forall word (map fe (full_bits data))).
  { apply Forall_map. eapply Forall_impl; [|apply full_len]. intros c Hc. cbn in Hc. apply fe_word. lia. }
  cbn [concat app] in Hcat.
  replace (lenN (concat wbu) mod BYTES_PER_FIELD_ELEMENT =? 0) with true.
  2: { symmetry. apply N.eqb_eq. rewrite (concat_len 32) by (apply word_len; exact Hw). unfold BYTES_PER_FIELD_ELEMENT. rewrite N.mul_comm. apply N.mod_mul. lia. }
  cbn [rassert rbind].
  assert (Hcount : lenN (full_bits data) = elems * lenN wbl + lenN wbu).
  { rewrite <- (lenN_map fe), <- Hcat, lenN_app, (concat_len elems) by exact Hl. reflexivity. }
  pose proof (full_count data) as Hfc. pose proof (rest_len data) as Hrl.
  set (rw := match rest_bits data with [] => [] | r => [fe r] end).
  assert (Hrun : match rest_bits data with [] => Ok (concat wbu) | _ => let! e := field_element_from_bits (rest_bits data) in Ok (concat wbu ++ e) end = Ok (concat (wbu ++ rw))).
  { unfold rw. destruct (rest_bits data) as [|b r] eqn:Hrest; [rewrite app_nil_r; reflexivity|]. rewrite field_element_run.
    - cbn [rbind]. rewrite concat_app. cbn [concat]. rewrite app_nil_r. reflexivity.
    - rewrite Hrl. lia. }
  unfold bytes, byte in *. rewrite Hrun. cbn [rbind].
  assert (Hrw : Forall word rw).
  { unfold rw. destruct (rest_bits data) as [|b r] eqn:Hrest; [constructor|]. (constructor; [apply fe_word; rewrite Hrl; lia|constructor]). }
  assert (Hwr : Forall word (wbu ++ rw)) by (apply Forall_app; auto).
  rewrite resize_words by (apply word_len; exact Hwr).
  exists (wbl ++ [firstN elems (wbu ++ rw) ++ repeatN (repeatN 0 32) (elems - lenN (wbu ++ rw))]).
  split; [rewrite map_app; reflexivity|]. split.
  { apply Forall_app. split; [exact Hl|]. repeat constructor. rewrite lenN_app, lenN_firstN, lenN_repeatN. lia. }
  assert (Hwb : Forall word (concat wbl)). { rewrite <- Hcat in Hdw. apply Forall_app in Hdw. tauto. }
  split.
  { rewrite concat_app. apply Forall_app. split; [exact Hwb|]. cbn [concat]. rewrite app_nil_r. apply Forall_app. split; [|apply Forall_repeatN, zero_word].
    rewrite <- (firstN_skipN elems (wbu ++ rw)) in Hwr. apply Forall_app in Hwr. tauto. }
  split.
  { rewrite lenN_app. change (lenN [_]) with 1. replace (lenN wbl + 1 - 1) with (lenN wbl) by lia. destruct wbu as [|w wbu'] eqn:Hwbu; [left|right; rewrite Hcount, lenN_cons; lia].
    destruct (Hnil eq_refl) as [_ Hn]. rewrite Hn in Hcount. change (lenN (@nil (list bool))) with 0 in Hcount. change (lenN (@nil (list N))) with 0 in Hcount. nia. }
  exists (elems - lenN (wbu ++ rw)). rewrite concat_app. cbn [concat]. rewrite app_nil_r, <- Hcat.
  assert (Hrl1 : lenN rw = if 8 * lenN data mod 254 =? 0 then 0 else 1).
  { unfold rw. rewrite <- Hrl. destruct (rest_bits data) as [|b r]; [reflexivity|]. rewrite lenN_cons. replace (lenN r + 1 =? 0) with false by lia. reflexivity. }
  destruct (N.eq_dec (lenN wbu) elems) as [Hfull|Hfull]; [destruct (N.eq_dec (8 * lenN data mod 254) 0) as [Hz|Hz]|].
  - right. rewrite Hz in Hrl1. change (lenN rw = 0) in Hrl1. apply lenN_0 in Hrl1. rewrite Hrl1, app_nil_r, firstN_all by lia. cbn [app]. split; [rewrite app_assoc; reflexivity|]. intros (_ & _ & Hx). contradiction.
  - left. rewrite firstN_app_exact by exact Hfull. split; [rewrite app_assoc; reflexivity|]. unfold overfull. rewrite <- Hfc, Hcount, Hfull. split; [lia|]. split; [|exact Hz].
    replace (elems * lenN wbl + elems) with ((lenN wbl + 1) * elems) by lia. apply N.mod_mul. lia.
  - right. assert (Hle : lenN (wbu ++ rw) <= elems). { rewrite lenN_app, Hrl1. destruct (8 * lenN data mod 254 =? 0); lia. }
    rewrite firstN_all by exact Hle. split; [rewrite <- !app_assoc; reflexivity|].
    intros (Hp & Hm & _). rewrite <- Hfc, Hcount in Hp, Hm. rewrite (N.mul_comm elems), N.add_comm, N.mod_add in Hm by lia. rewrite N.mod_small in Hm by lia.
    apply lenN_0 in Hm. destruct (Hnil Hm) as [_ Hn]. rewrite Hm, lenN_nil, N.add_0_r in Hcount. unfold full_bits in *. rewrite Hn in Hcount. change (lenN (@nil (list bool))) with 0 in Hcount. rewrite Hm in Hp. change (lenN (@nil (list N))) with 0 in Hp. lia.
Qed.

(** ** unpacking *)
Definition word_bits (w : list N) : list bool := skipN 2 (view_bits w).
Lemma word_bits_len w : lenN w = 32 -> lenN (word_bits w) = 254.
Proof. intros H. unfold word_bits. rewrite lenN_skipN, lenN_view, H. reflexivity. Qed.
Lemma rfold_app {A B} (f : B -> A -> res B) l k b : rfold f (l ++ k) b = rbind (rfold f l b) (rfold f k).
Proof. revert b. induction l as [|x l IH]; intros b; [reflexivity|]. cbn [app rfold]. destruct (f b x); cbn [rbind]; auto. Qed.
Lemma view_concat (ws : list (list N)) : view_bits (concat ws) = concat (map view_bits ws).
Proof. induction ws as [|w ws IH]; [reflexivity|]. cbn [concat map]. rewrite view_app, IH. reflexivity. Qed.
Lemma unpack_loop ws : Forall (fun w => lenN w = 32) ws -> forall dn z i, lenN dn = 254 * i -> 254 * lenN ws <= z ->
  rfold unpack_step (map view_bits ws) (dn ++ repeatN false z, i)
  = Ok (dn ++ concat (map word_bits ws) ++ repeatN false (z - 254 * lenN ws), i + lenN ws).
Proof.
  intros H. induction H as [|w ws Hw _ IH]; intros dn z i Hd Hz.
  - cbn [map rfold concat app]. change (lenN (@nil (list N))) with 0. rewrite N.mul_0_r, N.sub_0_r, N.add_0_r. reflexivity.
  - cbn [map rfold]. pose proof (word_bits_len w Hw) as Hb. rewrite lenN_cons in *.
    assert (Hstep : unpack_step (dn ++ repeatN false z, i) (view_bits w) = Ok ((dn ++ word_bits w) ++ repeatN false (z - 254), i + 1)).
    { unfold unpack_step. fold (word_bits w). unfold copy_bits, BITS_PER_FIELD_ELEMENT.
      rewrite Hb, lenN_app, lenN_repeatN, Hd. replace (i * 254 + 254 <=? 254 * i + z) with true by lia. cbn [rbind].
      rewrite firstN_app_exact by lia. rewrite skipN_app, skipN_all, skipN_repeatN by lia. cbn [app]. rewrite <- app_assoc. f_equal. f_equal. f_equal. f_equal. f_equal. lia. }
    rewrite Hstep. cbn [rbind]. rewrite IH by (rewrite ?lenN_app; lia). f_equal. f_equal; [|lia]. cbn [concat]. rewrite <- !app_assoc. f_equal. f_equal. f_equal. f_equal. lia.
Qed.
Lemma unpack_blob_chunks ws : Forall (fun w => lenN w = 32) ws -> chunks_exact (8 * BYTES_PER_FIELD_ELEMENT) (view_bits (concat ws)) = map view_bits ws.
Proof.
  intros H. rewrite view_concat. apply chunks_exact_concat; [reflexivity|]. apply Forall_map. eapply Forall_impl; [|exact H]. intros w Hw. cbn in Hw. rewrite lenN_view, Hw. reflexivity.
Qed.
Lemma unpack_run elems wblobs : Forall (fun ws => lenN ws = elems) wblobs -> Forall (fun w => lenN w = 32) (concat wblobs) ->
  unpack_from_blobs elems (map (@concat N) wblobs)
  = Ok (bits_bytes (N.to_nat (lenN wblobs * (32 * elems))) (concat (map word_bits (concat wblobs)) ++ repeatN false (2 * lenN wblobs * elems))).
Proof.
  intros Hl Hw. unfold unpack_from_blobs. rewrite lenN_map. change (blob_bytes elems) with (32 * elems). rewrite view_zeros.
  assert (Hloop : forall acc, rfold (fun acc blob => rfold unpack_step (chunks_exact (8 * BYTES_PER_FIELD_ELEMENT) (view_bits blob)) acc) (map (@concat N) wblobs) acc
    = rfold unpack_step (map view_bits (concat wblobs)) acc).
  { clear Hl. induction wblobs as [|ws wb IH]; intros acc; [reflexivity|]. cbn [map rfold concat] in *. apply Forall_app in Hw as [H1 H2]. rewrite unpack_blob_chunks by exact H1.
    unfold bytes, byte in *. rewrite map_app, rfold_app. match goal with |- rbind ?x _ = _ => destruct x end; cbn [rbind]; auto. }
  rewrite Hloop. change (repeatN false ?z, 0) with ([] ++ repeatN false z, 0). pose proof (concat_len elems wblobs Hl) as Hc.
  rewrite unpack_loop; [|exact Hw|reflexivity|rewrite Hc; lia]. cbn [rbind fst app]. f_equal. f_equal. f_equal. f_equal. rewrite Hc. lia.
Qed.
Lemma word_bits_fe src : lenN src <= 254 -> word_bits (fe src) = src ++ repeatN false (254 - lenN src).
Proof. intros H. unfold word_bits. rewrite fe_view by exact H. reflexivity. Qed.
Lemma word_bits_full cs : Forall (fun c => lenN c = 254) cs -> concat (map word_bits (map fe cs)) = concat cs.
Proof.
  intros H. induction H as [|c cs Hc _ IH]; [reflexivity|]. cbn [map concat]. rewrite word_bits_fe, IH, Hc by lia. change (254 - 254) with 0. rewrite repeatN_0, app_nil_r. reflexivity.
Qed.
Lemma word_bits_zeros z : concat (map word_bits (repeatN (repeatN 0 32) z)) = repeatN false (254 * z).
Proof.
  unfold repeatN at 1 3. replace (N.to_nat (254 * z)) with (N.to_nat 254 * N.to_nat z)%nat by lia. generalize (N.to_nat z). clear. induction n as [|n IH]; [rewrite Nat.mul_0_r; reflexivity|].
  cbn [repeat map concat]. rewrite IH. unfold word_bits at 1. rewrite view_zeros, skipN_repeatN. change (8 * 32 - 2) with 254. unfold repeatN. rewrite <- repeat_app. f_equal. lia.
Qed.
(** what the words of a packed buffer carry: the kept bytes, then zeros *)
Lemma bits_to_bytes kept size z : Forall (fun x => x < 256) kept -> 8 * lenN kept + z = 8 * size ->
  bits_bytes (N.to_nat size) (view_bits kept ++ repeatN false z) = kept ++ repeatN 0 (size - lenN kept).
Proof.
  intros Hk Hz. replace z with (8 * (size - lenN kept)) by lia. rewrite <- view_zeros, <- view_app.
  replace (N.to_nat size) with (length (kept ++ repeatN 0 (size - lenN kept))).
  - rewrite <- (app_nil_r (view_bits _)). apply bits_bytes_view. apply Forall_app. split; [exact Hk|]. apply Forall_repeatN. lia.
  - pose proof (lenN_app kept (repeatN 0 (size - lenN kept))) as H. rewrite lenN_repeatN in H. unfold lenN in *. lia.
Qed.
Lemma view_firstN m data : firstN (8 * m) (view_bits data) = view_bits (firstN m data).
Proof.
  destruct (N.le_ge_cases (lenN data) m) as [H|H]; [rewrite !firstN_all by (rewrite ?lenN_view; lia); reflexivity|].
  rewrite <- (firstN_skipN m data) at 1. rewrite view_app. apply firstN_app_exact. rewrite lenN_view, lenN_firstN. lia.
Qed.
Lemma rest_word data : concat (map word_bits (match rest_bits data with [] => [] | r => [fe r] end)) = rest_bits data ++ repeatN false (if 8 * lenN data mod 254 =? 0 then 0 else 254 - 8 * lenN data mod 254).
Proof.
  pose proof (rest_len data) as H. destruct (rest_bits data) as [|b r] eqn:Hr.
  - change (lenN (@nil bool)) with 0 in H. rewrite <- H. reflexivity.
  - cbn [map concat]. rewrite word_bits_fe by (rewrite H; lia). rewrite app_nil_r, H. destruct (N.eqb_spec (8 * lenN data mod 254) 0) as [Hz|Hz]; [|reflexivity]. rewrite Hz, lenN_cons in H. lia.
Qed.
Theorem unpack_pack elems data : 0 < elems -> Forall (fun x => x < 256) data -> exists blobs,
  pack_into_blobs elems data = Ok blobs /\ Forall (canonical_blob elems) blobs
  /\ (lenN blobs = 1 \/ 254 * elems * (lenN blobs - 1) < 8 * lenN data)
  /\ (~ overfull elems (lenN data) -> lenN data <= 32 * elems * lenN blobs /\ unpack_from_blobs elems blobs = Ok (data ++ repeatN 0 (32 * elems * lenN blobs - lenN data)))
  /\ (overfull elems (lenN data) -> forall m, 8 * m = 254 * (8 * lenN data / 254) ->
        8 * m <= 254 * elems * lenN blobs /\ unpack_from_blobs elems blobs = Ok (firstN m data ++ repeatN 0 (32 * elems * lenN blobs - m))).
Proof.
  intros He Hb. destruct (pack_run elems data He) as (wb & Hr & Hl & Hw & Hcnt & z & Hz). exists (map (@concat N) wb). split; [exact Hr|].
  assert (Hw32 : Forall (fun w => lenN w = 32) (concat wb)) by (apply word_len; exact Hw).
  split.
  { clear - Hl Hw. induction wb as [|ws wb IH]; [constructor|]. inversion Hl; subst. cbn [concat] in Hw. apply Forall_app in Hw as [Hw1 Hw2]. constructor; [|apply IH; assumption].
    exists ws. auto. }
  rewrite lenN_map. split.
  { rewrite full_count in Hcnt. destruct Hcnt as [?|Hcnt]; [auto|right]. replace (254 * elems * (lenN wb - 1)) with (254 * (elems * (lenN wb - 1))) by lia. lia. } pose proof (concat_len elems wb Hl) as Hc. pose proof (unpack_run elems wb Hl Hw32) as Hun.
  assert (Hcl : lenN (concat (map word_bits (concat wb))) = 254 * (elems * lenN wb)).
  { rewrite (concat_len 254), lenN_map, Hc; [reflexivity|]. apply Forall_map. eapply Forall_impl; [|exact Hw32]. intros w H. apply word_bits_len. exact H. }
  split; intros Ho.
  - destruct Hz as [[_ Hx]|[Hz _]]; [contradiction|].
    rewrite Hz, !map_app, !concat_app, word_bits_full, word_bits_zeros, rest_word in Hun by apply full_len.
    rewrite Hz, !map_app, !concat_app, word_bits_full, word_bits_zeros, rest_word in Hcl by apply full_len.
    rewrite <- !app_assoc in Hun. rewrite (app_assoc _ (rest_bits data)), bits_split in Hun. rewrite (app_assoc _ (repeatN false _)) in Hun. 
    rewrite <- !repeatN_add in Hun.
    rewrite !app_assoc, bits_split, !lenN_app, !lenN_repeatN, lenN_view in Hcl.
    set (pad := if 8 * lenN data mod 254 =? 0 then 0 else 254 - 8 * lenN data mod 254) in *. clearbody pad.
    split; [lia|]. rewrite Hun. f_equal. replace (32 * elems * lenN wb) with (lenN wb * (32 * elems)) by lia.
    rewrite <- app_assoc, <- repeatN_add. apply bits_to_bytes; [exact Hb|]. replace (lenN wb * (32 * elems)) with (32 * (elems * lenN wb)) by lia. replace (2 * lenN wb * elems) with (2 * (elems * lenN wb)) by lia. lia.
  - destruct Hz as [[Hz _]|[_ Hx]]; [|contradiction]. intros m Hm.
    rewrite Hz, !map_app, !concat_app, word_bits_full, word_bits_zeros in Hun by apply full_len.
    rewrite Hz, !map_app, !concat_app, word_bits_full, word_bits_zeros in Hcl by apply full_len.
    assert (Hfull : concat (full_bits data) = view_bits (firstN m data)).
    { unfold full_bits, chunks_exact. rewrite chunks_concat, Nnat.N2Nat.id, lenN_view, <- view_firstN. f_equal. lia. }
    assert (Hml : lenN (firstN m data) = m) by (rewrite lenN_firstN; lia).
    rewrite Hfull, <- app_assoc, <- repeatN_add in Hun. rewrite Hfull, lenN_app, lenN_view, lenN_repeatN, Hml in Hcl.
    split; [lia|]. rewrite Hun. f_equal. replace (32 * elems * lenN wb) with (lenN wb * (32 * elems)) by lia.
    replace (lenN wb * (32 * elems) - m) with (lenN wb * (32 * elems) - lenN (firstN m data)) by (rewrite Hml; reflexivity).
    apply bits_to_bytes; [|rewrite Hml; replace (lenN wb * (32 * elems)) with (32 * (elems * lenN wb)) by lia; replace (2 * lenN wb * elems) with (2 * (elems * lenN wb)) by lia; lia]. rewrite <- (firstN_skipN m data) in Hb. apply Forall_app in Hb. tauto.
Qed.
