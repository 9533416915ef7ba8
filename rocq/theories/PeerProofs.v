(** * Proofs about base 58 and peer identifiers *)
From Verif Require Import Base BaseLemmas Peer SpecPeer.
From Coq Require Import Ascii String.

(** the number of digits, least significant first *)
Fixpoint value (B : N) (l : list N) : N := match l with [] => 0 | d :: t => d + B * value B t end.
Lemma number_value B l : number B l = value B (rev l).
Proof.
  unfold number. rewrite <- fold_left_rev_right. induction (rev l) as [|d k IH]; [reflexivity|]. cbn [fold_right value]. rewrite IH. lia.
Qed.
(** canonical: digits below the base, most significant one not 0 *)
Fixpoint canon (B : N) (l : list N) : Prop := match l with [] => True | d :: t => d < B /\ (t = [] -> d <> 0) /\ canon B t end.
Lemma canon_pos B l : 1 < B -> canon B l -> l <> [] -> 0 < value B l.
Proof.
  intros HB. induction l as [|d l IH]; intros Hk Hn; [congruence|]. destruct Hk as (H1 & H2 & H3). cbn [value]. destruct l as [|e l]; [specialize (H2 eq_refl); lia|].
  specialize (IH H3 ltac:(discriminate)). nia.
Qed.
Lemma canon_unique B l : 1 < B -> canon B l -> forall k, canon B k -> value B l = value B k -> l = k.
Proof.
  intros HB. induction l as [|d l IH]; intros Hl k Hk Hv.
  - destruct k as [|e k]; [reflexivity|]. pose proof (canon_pos B (e :: k) HB Hk ltac:(discriminate)) as H. rewrite <- Hv in H. cbn [value] in H. lia.
  - destruct k as [|e k]; [pose proof (canon_pos B (d :: l) HB Hl ltac:(discriminate)) as H; rewrite Hv in H; cbn [value] in H; lia|].
    destruct Hl as (A1 & A2 & A3), Hk as (B1 & B2 & B3). cbn [value] in Hv.
    assert (d = e /\ value B l = value B k) as [-> Hv'].
    { assert (E : (d + B * value B l) mod B = (e + B * value B k) mod B) by (rewrite Hv; reflexivity).
      rewrite !(N.mul_comm B), !N.mod_add, !N.mod_small in E by lia. subst e. split; [reflexivity|]. nia. }
    f_equal. apply IH; assumption.
Qed.
Lemma size_double c B : 2 <= B -> c <> 0 -> (N.size_nat (c / B) < N.size_nat c)%nat.
Proof.
  intros HB Hc. assert (L : forall a b, a <= b -> (N.size_nat a <= N.size_nat b)%nat).
  { intros a b H. destruct (N.eq_dec a 0) as [->|Ha]; [cbn; lia|]. assert (Hs : forall x, N.size_nat x = N.to_nat (N.size x)).
    { intros [|p]; [reflexivity|]. cbn [N.size_nat N.size]. induction p; cbn [Pos.size_nat Pos.size]; lia. }
    rewrite !Hs. rewrite !N.size_log2 by lia. pose proof (N.log2_le_mono a b H). lia. }
  assert (H : c / B <= N.div2 c). { rewrite N.div2_div. apply N.div_le_compat_l. lia. }
  apply L in H. destruct c as [|[p|p|]]; [congruence|cbn [N.div2 N.size_nat Pos.size_nat] in *; lia|cbn [N.div2 N.size_nat Pos.size_nat] in *; lia|cbn in *; lia].
Qed.
Lemma spill_ok B fuel : 2 <= B -> forall c, (N.size_nat c <= fuel)%nat -> value B (spill fuel B c) = c /\ canon B (spill fuel B c) /\ (c <> 0 -> spill fuel B c <> []).
Proof.
  intros HB. induction fuel as [|n IH]; intros c Hc.
  - destruct c as [|p]; [cbn; auto|]. exfalso. cbn in Hc. destruct p; cbn in Hc; lia.
  - cbn [spill]. destruct (N.eqb_spec c 0) as [->|Hn]; [cbn; auto|]. pose proof (size_double c B HB Hn) as Hd. destruct (IH (c / B) ltac:(lia)) as (V & K & Ne). cbn [value canon].
    split; [rewrite V; pose proof (N.div_mod c B); lia|]. split; [|discriminate]. split; [apply N.mod_lt; lia|]. split; [|exact K].
    intros E. destruct (N.eq_dec (c / B) 0) as [Z|Z]; [|elim (Ne Z E)]. pose proof (N.div_mod c B). intros M0. rewrite Z, M0 in H. lia.
Qed.
Lemma push_ok M B : 2 <= B -> 0 < M -> forall ds c, canon B ds -> value B (push M B ds c) = value B ds * M + c /\ canon B (push M B ds c) /\ (ds <> [] \/ c <> 0 -> push M B ds c <> []).
Proof.
  intros HB HM. induction ds as [|d ds IH]; intros c Hd; cbn [push].
  - destruct (spill_ok B (N.size_nat c) HB c (le_n _)) as (V & K & Ne). cbn [value]. split; [rewrite V; lia|]. split; [exact K|]. intros [H|H]; [congruence|auto].
  - destruct Hd as (D1 & D2 & D3). cbv zeta. set (x := c + d * M). destruct (IH (x / B) D3) as (V & K & Ne). cbn [value canon]. pose proof (N.div_mod x B ltac:(lia)) as Hx.
    split; [rewrite V; clear - Hx; unfold x in Hx at 1; nia|]. split; [|discriminate]. split; [apply N.mod_lt; lia|]. split; [|exact K].
    intros E. destruct (N.eq_dec (x / B) 0) as [Z|Z]; [|exfalso; apply Ne; [right; exact Z|exact E]].
    destruct ds as [|e ds]; [|exfalso; apply Ne; [left; discriminate|exact E]]. specialize (D2 eq_refl). intros M0. rewrite Z, M0 in Hx. unfold x in Hx. nia.
Qed.
Lemma conv_ok M B l : 2 <= B -> 0 < M -> value B (conv M B l) = number M l /\ canon B (conv M B l).
Proof.
  intros HB HM. unfold conv, number.
  assert (G : forall l ds n, canon B ds -> value B ds = n -> value B (fold_left (push M B) l ds) = fold_left (fun n d => n * M + d) l n /\ canon B (fold_left (push M B) l ds)).
  { clear l. induction l as [|x l IH]; intros ds n Hk Hv; cbn [fold_left]; [auto|]. destruct (push_ok M B HB HM ds x Hk) as (V & K & _). apply IH; [exact K|rewrite V, Hv; reflexivity]. }
  apply G; [exact I|reflexivity].
Qed.
Lemma canon_plain B l : canon B l -> plain (rev l) /\ Forall (fun d => d < B) (rev l).
Proof.
  intros H. split.
  - induction l as [|d l IH] using rev_ind; [exact I|]. rewrite rev_app_distr. cbn [rev app]. unfold plain. destruct d; [|exact I].
    clear IH. induction l as [|e l IH]; cbn [app canon] in H; [destruct H as (_ & H & _); exact (H eq_refl eq_refl)|]. apply IH. apply H.
  - apply Forall_rev. induction l as [|d l IH]; constructor; [apply H|apply IH; apply H].
Qed.
Lemma plain_canon B l : plain l -> Forall (fun d => d < B) l -> canon B (rev l).
Proof.
  destruct l as [|d l]; intros Hp Hf; [exact I|]. cbn [rev]. inversion Hf; subst. assert (d <> 0) by (intros ->; exact Hp).
  assert (G : forall k, Forall (fun d => d < B) k -> canon B (k ++ [d])).
  { induction k as [|e k IH]; intros Hk; cbn [app canon]; [auto|]. inversion Hk; subst. split; [assumption|]. split; [intros E; destruct k; discriminate|]. apply IH. assumption. }
  apply G. apply Forall_rev. assumption.
Qed.
(** leading zeros *)
Lemma zeros_split l : exists rest, l = repeat 0 (leading_zeros l) ++ rest /\ plain rest.
Proof.
  induction l as [|x l (r & IH & P)]; [exists []; split; [reflexivity|exact I]|]. cbn [leading_zeros]. destruct (N.eqb_spec x 0) as [->|Hx].
  - exists r. split; [cbn [repeat app]; congruence|exact P].
  - exists (x :: l). split; [reflexivity|]. destruct x; [congruence|exact I].
Qed.
Lemma zeros_count z r : plain r -> leading_zeros (repeat 0 z ++ r) = z.
Proof. intros P. induction z as [|z IH]; cbn [repeat app leading_zeros]; [|rewrite IH; reflexivity]. destruct r as [|[|p] r]; [reflexivity|destruct P|reflexivity]. Qed.
Lemma number_zeros B z r : number B (repeat 0 z ++ r) = number B r.
Proof. unfold number. rewrite fold_left_app. f_equal. induction z as [|z IH]; [reflexivity|]. cbn [repeat fold_left]. exact IH. Qed.
(** converting from base [M] to base [B] keeps leading zeros and the number *)
Definition convert (M B : N) (l : list N) : list N := rev (conv M B l ++ repeat 0 (leading_zeros l)).
Lemma rev_repeat {A} (x : A) n : rev (repeat x n) = repeat x n.
Proof. induction n as [|n IH]; [reflexivity|]. cbn [repeat rev]. rewrite IH. clear IH. induction n as [|n IH]; [reflexivity|]. cbn [repeat app]. rewrite IH. reflexivity. Qed.
Lemma convert_spec M B l k : 2 <= B -> 0 < M ->
  (convert M B l = k <-> exists z r d, l = repeat 0 z ++ r /\ plain r /\ k = repeat 0 z ++ d /\ plain d /\ Forall (fun x => x < B) d /\ number M r = number B d).
Proof.
  intros HB HM. destruct (conv_ok M B l HB HM) as [V K]. unfold convert. rewrite rev_app_distr, rev_repeat. split.
  - intros <-. destruct (zeros_split l) as (r & E & P). exists (leading_zeros l), r, (rev (conv M B l)). destruct (canon_plain B _ K) as [Q1 Q2].
    split; [exact E|]. split; [exact P|]. split; [reflexivity|]. split; [exact Q1|]. split; [exact Q2|]. rewrite (number_value B), rev_involutive, V. rewrite E, number_zeros. reflexivity.
  - intros (z & r & d & -> & P & -> & Q1 & Q2 & E). rewrite zeros_count by exact P. f_equal. rewrite <- (rev_involutive d). f_equal.
    apply (canon_unique B); [lia|exact K|apply plain_canon; assumption|]. rewrite V, number_zeros, E, number_value. reflexivity.
Qed.
Lemma convert_back M B l : 2 <= B -> 2 <= M -> Forall (fun x => x < M) l -> convert B M (convert M B l) = l.
Proof.
  intros HB HM Hl. destruct (proj1 (convert_spec M B l _ HB ltac:(lia)) eq_refl) as (z & r & d & E & P & Ek & Q1 & Q2 & Hn).
  apply convert_spec; [exact HM|lia|]. exists z, d, r. split; [exact Ek|]. split; [exact Q1|]. split; [exact E|]. split; [exact P|]. split; [|symmetry; exact Hn].
  rewrite E in Hl. apply Forall_app in Hl. apply Hl.
Qed.
Lemma convert_digits M B l : 2 <= B -> 0 < M -> Forall (fun x => x < B) (convert M B l).
Proof.
  intros HB HM. destruct (proj1 (convert_spec M B l _ HB HM) eq_refl) as (z & r & d & _ & _ & -> & _ & Q & _). apply Forall_app. split; [|exact Q].
  apply Forall_forall. intros x Hx. apply repeat_spec in Hx. lia.
Qed.
(** ** the alphabet *)
Lemma alphabet_len : lenN alphabet = 58. Proof. reflexivity. Qed.
Lemma alphabet_once : NoDup alphabet.
Proof.
  assert (H : (fix nd (l : list N) := match l with [] => true | x :: t => negb (existsb (N.eqb x) t) && nd t end) alphabet = true) by (vm_compute; reflexivity).
  revert H. generalize alphabet. intros l. induction l as [|x l IH]; intros H; [constructor|]. apply andb_prop in H as [H1 H2]. constructor; [|apply IH; exact H2].
  intros Hi. apply negb_true_iff in H1. assert (existsb (N.eqb x) l = true) by (apply existsb_exists; exists x; split; [exact Hi|apply N.eqb_refl]). congruence.
Qed.
Lemma nthN_step {A} (y : A) l d : nthN (y :: l) d = if d =? 0 then Some y else nthN l (d - 1). Proof. reflexivity. Qed.
Lemma position_iff x l d : NoDup l -> (position x l = Some d <-> nthN l d = Some x).
Proof.
  intros Hn. revert d. induction l as [|y l IH]; intros d; cbn [position].
  - split; [discriminate|]. intros H. apply nthN_some in H. change (lenN []) with 0 in H. lia.
  - inversion Hn as [|? ? Hy Hl]; subst. specialize (IH Hl). rewrite nthN_step. destruct (N.eqb_spec x y) as [->|Hx].
    + split; [intros [= <-]; reflexivity|]. destruct (N.eqb_spec d 0) as [->|Hd]; [reflexivity|]. intros H. apply nthN_In in H. elim (Hy H).
    + destruct (N.eqb_spec d 0) as [->|Hd].
      * split; [|congruence]. destruct (position x l) as [e|]; cbn [option_map]; [intros [= H]; lia|discriminate].
      * rewrite <- IH. destruct (position x l) as [e|]; cbn [option_map]; [|split; discriminate]. split; intros [= H]; f_equal; lia.
Qed.
Lemma digit_iff c d : base58_digit c d <-> position c alphabet = Some d.
Proof.
  rewrite (position_iff c alphabet d alphabet_once). unfold base58_digit. fold alphabet. split; [tauto|]. intros H. split; [|exact H]. apply nthN_some in H. rewrite alphabet_len in H. exact H.
Qed.
Lemma digits_iff s ds : digits_of s = Some ds <-> Forall2 base58_digit s ds.
Proof.
  revert ds. induction s as [|c s IH]; intros ds; cbn [digits_of].
  - split; [intros [= <-]; constructor|]. intros H. inversion H. reflexivity.
  - split.
    + intros H. destruct (position c alphabet) as [d|] eqn:Hd; [|discriminate]. destruct (digits_of s) as [k|] eqn:Hk; [|discriminate]. injection H as <-.
      constructor; [apply digit_iff; exact Hd|apply IH; reflexivity].
    + intros H. inversion H as [|? d ? k H1 H2]; subst. apply digit_iff in H1. apply IH in H2. rewrite H1, H2. reflexivity.
Qed.
Lemma nthN_nth {A} (z : A) l : forall d, d < lenN l -> nthN l d = Some (nth (N.to_nat d) l z).
Proof.
  induction l as [|y l IH]; intros d Hd; [change (lenN []) with 0 in Hd; lia|]. rewrite nthN_step. destruct (N.eqb_spec d 0) as [->|H0]; [reflexivity|].
  rewrite lenN_cons in Hd. rewrite IH by lia. replace (N.to_nat d) with (S (N.to_nat (d - 1))) by lia. reflexivity.
Qed.
Lemma letters_iff ds s : Forall (fun d => d < 58) ds -> (map (fun d => nth (N.to_nat d) alphabet 0) ds = s <-> Forall2 base58_digit s ds).
Proof.
  intros Hd. assert (L : forall d c, d < 58 -> (nth (N.to_nat d) alphabet 0 = c <-> base58_digit c d)).
  { intros d c Hl. unfold base58_digit. fold alphabet. rewrite (nthN_nth 0 alphabet d) by (rewrite alphabet_len; exact Hl). split; [intros <-; auto|intros [_ [= H]]; exact H]. }
  revert s. induction Hd as [|d ds H1 H2 IH]; intros s; cbn [map].
  - split; [intros <-; constructor|intros H; inversion H; reflexivity].
  - split.
    + intros <-. constructor; [apply L; auto|apply IH; reflexivity].
    + intros H. inversion H as [|c ? t ? K1 K2]; subst. f_equal; [apply L; assumption|apply IH; assumption].
Qed.
Lemma encode_digits b : Forall2 base58_digit (b58_encode b) (convert 256 58 b).
Proof. apply letters_iff; [apply convert_digits; lia|reflexivity]. Qed.
Lemma Forall2_unique s a b : Forall2 base58_digit s a -> Forall2 base58_digit s b -> a = b.
Proof. intros H1 H2. apply digits_iff in H1, H2. congruence. Qed.
Lemma letters_unique s t ds : Forall2 base58_digit s ds -> Forall2 base58_digit t ds -> s = t.
Proof.
  intros H. revert t. induction H as [|c d s ds [_ H1] H2 IH]; intros t K; inversion K as [|c' ? t' ? [_ K1] K2]; subst; [reflexivity|]. f_equal; [congruence|apply IH; assumption].
Qed.
Lemma encode_iff b s : b58_encode b = s <-> base58_text b s.
Proof.
  split.
  - intros <-. pose proof (encode_digits b) as H. destruct (proj1 (convert_spec 256 58 b _ ltac:(lia) ltac:(lia)) eq_refl) as (z & r & d & E & P & Ek & Q1 & Q2 & Hn).
    exists z, r, d. rewrite <- Ek. auto.
  - intros (z & r & d & E & P & Q & Hn & F). apply (letters_unique _ _ (repeat 0 z ++ d)); [|exact F].
    assert (convert 256 58 b = repeat 0 z ++ d) as <-; [|apply encode_digits]. apply convert_spec; [lia|lia|]. exists z, r, d. repeat (split; [first [assumption|reflexivity]|]).
    split; [|exact Hn]. apply Forall2_app_inv_r in F as (s1 & s2 & _ & F & _). clear - F. induction F as [|c d s ds [H _] _ IH]; constructor; assumption.
Qed.
Lemma decode_encode b : octets b -> b58_decode (b58_encode b) = Some b.
Proof.
  intros Hb. unfold b58_decode. rewrite (proj2 (digits_iff _ _) (encode_digits b)). f_equal. apply (convert_back 256 58); [lia|lia|exact Hb].
Qed.
Lemma decode_iff s b : b58_decode s = Some b <-> octets b /\ b58_encode b = s.
Proof.
  split; [|intros [H <-]; apply decode_encode; exact H]. unfold b58_decode. destruct (digits_of s) as [ds|] eqn:Hd; [|discriminate]. intros [= <-]. change (rev (conv 58 256 ds ++ repeat 0 (leading_zeros ds))) with (convert 58 256 ds).
  split; [apply convert_digits; lia|]. apply digits_iff in Hd. apply (letters_unique _ _ ds); [|exact Hd].
  assert (E : convert 256 58 (convert 58 256 ds) = ds). { apply convert_back; [lia|lia|]. clear - Hd. induction Hd as [|c d s ds [H _] _ IH]; constructor; assumption. }
  rewrite <- E at 2. apply encode_digits.
Qed.

(** ** varints and multihashes *)
Lemma read_write fuel : forall n shift acc t, n < 2 ^ (7 * N.of_nat fuel) -> acc + n * 2 ^ shift < U64 -> (shift = 0 \/ n <> 0) -> (0 < fuel)%nat ->
  read_varint fuel shift acc (write_varint fuel n ++ t) = Some (acc + n * 2 ^ shift, t).
Proof.
  induction fuel as [|k IH]; intros n shift acc t Hn Hb Hz Hf; [lia|]. cbn [write_varint]. destruct (N.ltb_spec n 128) as [Hl|Hl].
  - cbn [app read_varint]. cbv zeta. rewrite (N.mod_small n 128) by exact Hl. rewrite (N.mod_small _ U64) by exact Hb. destruct (N.ltb_spec n 128); [|lia].
    destruct (N.eqb_spec n 0) as [->|H0]; [destruct (N.ltb_spec 0 shift); [exfalso; destruct Hz; lia|]|]; reflexivity.
  - assert (Hk : (0 < k)%nat). { destruct k; [|lia]. change (2 ^ (7 * N.of_nat 1)) with 128 in Hn. lia. }
    cbn [app read_varint]. cbv zeta. pose proof (N.div_mod n 128 ltac:(lia)) as Hd. pose proof (N.mod_lt n 128 ltac:(lia)) as Hm.
    replace ((128 + n mod 128) mod 128) with (n mod 128) by (rewrite <- N.add_mod_idemp_l, N.mod_same, N.add_0_l by lia; symmetry; apply N.mod_mod; lia).
    destruct (N.ltb_spec (128 + n mod 128) 128); [lia|].
    assert (Hp : 2 ^ (shift + 7) = 128 * 2 ^ shift) by (rewrite N.pow_add_r; change (2 ^ 7) with 128; lia).
    assert (Hs : acc + n mod 128 * 2 ^ shift + n / 128 * 2 ^ (shift + 7) = acc + n * 2 ^ shift). { rewrite Hp. clear - Hd. rewrite Hd at 3. rewrite N.mul_add_distr_r. lia. }
    rewrite (N.mod_small _ U64) by lia. rewrite IH; [rewrite Hs; reflexivity| |rewrite Hs; exact Hb| |exact Hk].
    + apply N.div_lt_upper_bound; [lia|]. replace (128 * 2 ^ (7 * N.of_nat k)) with (2 ^ (7 * N.of_nat (S k))); [exact Hn|]. replace (7 * N.of_nat (S k)) with (7 + 7 * N.of_nat k) by lia. rewrite N.pow_add_r. reflexivity.
    + right. intros Z. rewrite Z in Hd. lia.
Qed.
Lemma read_written n t : n < 2 ^ 64 -> read_varint 10 0 0 (write_varint 10 n ++ t) = Some (n, t).
Proof.
  intros H. rewrite (read_write 10 n 0 0 t); [f_equal; f_equal; rewrite N.pow_0_r; lia| |rewrite N.pow_0_r; change U64 with (2 ^ 64); lia|left; reflexivity|lia].
  apply (N.lt_le_trans _ _ _ H). apply N.pow_le_mono_r; [discriminate|]. cbn. lia.
Qed.
Lemma from_to p : p_code p < 2 ^ 64 -> lenN (p_digest p) <= 64 -> multihash_from_bytes (to_bytes p) = Some p.
Proof.
  intros H1 H2. unfold multihash_from_bytes, to_bytes. rewrite read_written by exact H1. rewrite read_written by (change (2 ^ 64) with 18446744073709551616; lia).
  destruct (N.ltb_spec 64 (lenN (p_digest p))); [lia|]. rewrite N.eqb_refl. destruct p; reflexivity.
Qed.
Lemma from_multihash_iff p q : from_multihash p = Some q <-> q = p /\ (p_code p = 18 \/ p_code p = 0 /\ lenN (p_digest p) <= 42).
Proof.
  unfold from_multihash, SHA2_256, IDENTITY, MAX_INLINE_KEY_LENGTH. destruct (N.eqb_spec (p_code p) 18) as [E|E]; [split; [intros [= <-]; auto|intros [-> _]; reflexivity]|].
  destruct (N.eqb_spec (p_code p) 0) as [E0|E0], (N.leb_spec (lenN (p_digest p)) 42) as [L|L]; cbn [andb]; (split; [first [discriminate|intros [= <-]; auto]|intros [-> H]; first [reflexivity|exfalso; destruct H as [H|[H K]]; [congruence|first [congruence|lia]]]]).
Qed.
Lemma read_suffix fuel : forall shift acc b n t, read_varint fuel shift acc b = Some (n, t) -> exists h, b = h ++ t /\ h <> [].
Proof.
  induction fuel as [|k IH]; intros shift acc b n t H; [discriminate|]. destruct b as [|x b]; [discriminate|]. cbn [read_varint] in H. cbv zeta in H. destruct (x <? 128).
  - destruct (_ && _); [discriminate|]. injection H as _ <-. exists [x]. split; [reflexivity|discriminate].
  - destruct (IH _ _ _ _ _ H) as (h & -> & _). exists (x :: h). split; [reflexivity|discriminate].
Qed.
Lemma read_canon fuel : forall shift acc b n t, read_varint fuel shift acc b = Some (n, t) -> octets b -> acc < 2 ^ shift -> shift + 7 * lenN b <= 63 + 7 * lenN t ->
  exists m, b = write_varint fuel m ++ t /\ n = acc + m * 2 ^ shift /\ (shift = 0 \/ m <> 0).
Proof.
  induction fuel as [|k IH]; intros shift acc b n t H Hb Ha Hl; [discriminate|]. destruct b as [|x b]; [discriminate|]. pose proof (read_suffix _ _ _ _ _ _ H) as (h & Eh & Nh).
  cbn [read_varint] in H. cbv zeta in H. inversion Hb as [|? ? Hx Hb']; subst.
  assert (Hs : shift + 7 <= 63). { rewrite Eh, lenN_app in Hl. destruct h as [|y h]; [congruence|]. rewrite lenN_cons in Hl. lia. }
  assert (Hp : 2 ^ (shift + 7) = 128 * 2 ^ shift) by (rewrite N.pow_add_r; change (2 ^ 7) with 128; lia).
  assert (Hw : (acc + x mod 128 * 2 ^ shift) < 2 ^ (shift + 7)). { rewrite Hp. pose proof (N.mod_lt x 128 ltac:(lia)). clear - H0 Ha. nia. }
  assert (Hm : (acc + x mod 128 * 2 ^ shift) mod U64 = acc + x mod 128 * 2 ^ shift).
  { apply N.mod_small. apply (N.lt_trans _ _ _ Hw). change U64 with (2 ^ 64). apply N.pow_lt_mono_r; lia. }
  rewrite Hm in H. clear Hm. destruct (N.ltb_spec x 128) as [Hx1|Hx1].
  - destruct ((x =? 0) && (0 <? shift)) eqn:Hz; [discriminate|]. injection H as <- <-. exists x. cbn [write_varint]. destruct (N.ltb_spec x 128); [|lia]. split; [reflexivity|].
    rewrite (N.mod_small x 128) by exact Hx1. split; [reflexivity|]. destruct (N.eqb_spec x 0); [|auto]. destruct (N.ltb_spec 0 shift); [discriminate|left; lia].
  - destruct (IH _ _ _ _ _ H Hb' Hw) as (m & E1 & E2 & E3). { rewrite lenN_cons in Hl. lia. } exists (x mod 128 + 128 * m).
    assert (Hm0 : m <> 0) by (destruct E3; [lia|assumption]). cbn [write_varint]. destruct (N.ltb_spec (x mod 128 + 128 * m) 128); [lia|].
    assert (D : (x mod 128 + 128 * m) / 128 = m /\ (x mod 128 + 128 * m) mod 128 = x mod 128).
    { pose proof (N.mod_lt x 128 ltac:(lia)). rewrite (N.mul_comm 128 m). rewrite N.div_add, N.mod_add by lia. rewrite N.div_small, N.mod_mod by lia. lia. }
    destruct D as [-> ->]. split; [|split; [rewrite E2, Hp; clear; lia|right; lia]]. rewrite E1. cbn [app]. f_equal.
    assert (x / 128 = 1); [|pose proof (N.div_mod x 128 ltac:(lia)); lia]. symmetry. apply (N.div_unique x 128 1 (x - 128)); lia.
Qed.
Lemma multihash_inv b p : octets b -> multihash_from_bytes b = Some p -> octets (p_digest p) /\ lenN (p_digest p) <= 64
  /\ (lenN b <= 10 + lenN (p_digest p) -> b = to_bytes p).
Proof.
  intros Hb H. unfold multihash_from_bytes in H. destruct (read_varint 10 0 0 b) as [[code r]|] eqn:R1; [|discriminate]. destruct (read_varint 10 0 0 r) as [[size d]|] eqn:R2; [|discriminate].
  destruct (N.ltb_spec 64 size) as [|Hs]; [discriminate|]. destruct (N.eqb_spec (lenN d) size) as [Hd|]; [|discriminate]. injection H as <-. cbn [p_digest p_code].
  destruct (read_suffix _ _ _ _ _ _ R1) as (h1 & E1 & N1). destruct (read_suffix _ _ _ _ _ _ R2) as (h2 & E2 & N2).
  assert (Hr : octets r) by (unfold octets in *; rewrite E1 in Hb; apply Forall_app in Hb; apply Hb).
  split; [unfold octets in *; rewrite E2 in Hr; apply Forall_app in Hr; apply Hr|]. split; [lia|]. intros Hl.
  assert (L1 : lenN h1 <> 0) by (destruct h1; [congruence|rewrite lenN_cons; lia]). assert (L2 : lenN h2 <> 0) by (destruct h2; [congruence|rewrite lenN_cons; lia]).
  assert (Lb : lenN b = lenN h1 + lenN r) by (rewrite E1; apply lenN_app). assert (Lr : lenN r = lenN h2 + lenN d) by (rewrite E2; apply lenN_app).
  destruct (read_canon _ _ _ _ _ _ R1 Hb) as (m1 & A1 & A2 & _); [reflexivity|lia|]. destruct (read_canon _ _ _ _ _ _ R2 Hr) as (m2 & B1 & B2 & _); [reflexivity|lia|].
  unfold to_bytes. cbn [p_code p_digest]. rewrite A1, B1, A2. rewrite Hd, B2. rewrite N.pow_0_r, !N.mul_1_r, !N.add_0_l. reflexivity.
Qed.
