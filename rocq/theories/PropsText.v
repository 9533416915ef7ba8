(** * Property theorems: textual encodings *)
From Coq Require Import Ascii String.
From Verif Require Import Base BaseLemmas StLemmas Ctx Presets Text SpecText.

Definition all_bytes (b : bytes) : Prop := Forall (fun x => x < 256) b.

Lemma hex_value_iff c v : hex_value c = Some v <-> hex_digit_is c v.
Proof.
  unfold hex_digit_is. split.
  - unfold hex_value. intros H.
    assert (Hv : v < 16 /\ (c = 48 + v /\ v < 10 \/ c = 87 + v /\ 10 <= v \/ c = 55 + v /\ 10 <= v)).
    { destruct ((48 <=? c) && (c <=? 57)) eqn:E1; [injection H as <-; lia|]. destruct ((97 <=? c) && (c <=? 102)) eqn:E2; [injection H as <-; lia|].
      destruct ((65 <=? c) && (c <=? 70)) eqn:E3; [injection H as <-; lia|discriminate]. }
    destruct Hv as [Hv Hc]. assert (Hin : In v [0;1;2;3;4;5;6;7;8;9;10;11;12;13;14;15]) by (cbn; lia).
    clear H. cbn in Hin. repeat (destruct Hin as [<-|Hin]; [destruct Hc as [[-> Hb]|[[-> Hb]|[-> Hb]]]; first [exfalso; lia|vm_compute; auto]|]). contradiction.
  - intros H. assert (Hlt : (N.to_nat v < 16)%nat).
    { destruct H as [H|H]; [change 16%nat with (length (codes "0123456789abcdef"))|change 16%nat with (length (codes "0123456789ABCDEF"))];
        apply nth_error_Some; rewrite H; discriminate. }
    assert (Hin : In v [0;1;2;3;4;5;6;7;8;9;10;11;12;13;14;15]) by (cbn; lia).
    cbn in Hin. repeat (destruct Hin as [<-|Hin]; [vm_compute in H; destruct H as [[= <-]|[= <-]]; reflexivity|]). contradiction.
Qed.

Lemma hex_digit_ok v : v < 16 -> hex_value (hex_digit v) = Some v.
Proof.
  intros H. unfold hex_value, hex_digit. destruct (N.ltb_spec v 10).
  - replace ((48 <=? 48 + v) && (48 + v <=? 57)) with true by lia. f_equal. lia.
  - replace ((48 <=? 87 + v) && (87 + v <=? 57)) with false by lia. replace ((97 <=? 87 + v) && (87 + v <=? 102)) with true by lia. f_equal. lia.
Qed.
Lemma hex_pairs_iff t : forall b, hex_pairs t = Ok b <-> hex_denotes t b.
Proof.
  assert (Hgen : forall n t, (length t <= n)%nat -> forall b, hex_pairs t = Ok b <-> hex_denotes t b).
  { induction n as [|n IH]; intros [|h [|l u]] Hn b; cbn [length] in Hn; try lia.
    1,2: cbn [hex_pairs]; split; [intros [= <-]; constructor|intros H; inversion H; reflexivity].
    - cbn [hex_pairs]. split; [discriminate|intros H; inversion H].
    - cbn [hex_pairs]. split.
      + intros H. apply rbind_ok_inv in H as (x & Hx & H). apply rbind_ok_inv in H as (y & Hy & H). apply rbind_ok_inv in H as (r & Hr & H). injection H as <-.
        destruct (hex_value h) as [x'|] eqn:Eh; [|discriminate Hx]. injection Hx as <-. destruct (hex_value l) as [y'|] eqn:El; [|discriminate Hy]. injection Hy as <-.
        constructor; [apply hex_value_iff; exact Eh|apply hex_value_iff; exact El|apply IH; [lia|exact Hr]].
      + intros H. inversion H as [|h0 l0 x y t0 b0 Hx Hy Ht]; subst. apply hex_value_iff in Hx. apply hex_value_iff in Hy. rewrite Hx, Hy. cbn [ok_or rbind].
        apply IH in Ht; [|lia]. rewrite Ht. reflexivity. }
  exact (Hgen (length t) t (le_n _)).
Qed.
Lemma denotes_even t b : hex_denotes t b -> lenN t = 2 * lenN b.
Proof. intros H. induction H as [|h l x y t b _ _ _ IH]; [reflexivity|]. unfold lenN in *. cbn [length]. lia. Qed.
Lemma hex_decode_iff t b : hex_decode t = Ok b <-> hex_denotes t b.
Proof.
  unfold hex_decode. rewrite <- hex_pairs_iff. destruct (N.odd (lenN t)) eqn:Ho; [|reflexivity]. split; [discriminate|].
  rewrite hex_pairs_iff. intros H. apply denotes_even in H. rewrite H in Ho. rewrite N.odd_mul in Ho. discriminate Ho.
Qed.
Lemma strip_0x_iff t u : strip_0x t = u <-> opt_0x t u.
Proof.
  assert (H0 : codes "0x" = [48; 120]) by reflexivity.
  split.
  - intros <-. unfold strip_0x. destruct t as [|a [|b r]].
    + apply without_0x. intros r Hr. rewrite H0 in Hr. discriminate Hr.
    + apply without_0x. intros r Hr. rewrite H0 in Hr. discriminate Hr.
    + destruct ((a =? 48) && (b =? 120)) eqn:Eq.
      * apply andb_true_iff in Eq as [->%N.eqb_eq ->%N.eqb_eq]. change (48 :: 120 :: r) with (codes "0x" ++ r). constructor.
      * apply without_0x. intros r' Hr. rewrite H0 in Hr. injection Hr as -> -> ->. discriminate Eq.
  - intros H. destruct H as [t|t Hn]; [reflexivity|]. unfold strip_0x. destruct t as [|a [|b r]]; try reflexivity.
    destruct ((a =? 48) && (b =? 120)) eqn:Eq; [|reflexivity]. apply andb_true_iff in Eq as [->%N.eqb_eq ->%N.eqb_eq]. exfalso. apply (Hn r). reflexivity.
Qed.
Lemma hex_text_denotes b : all_bytes b -> hex_denotes (hex_text b) b.
Proof.
  intros H. induction H as [|x b Hx _ IH]; [constructor|]. change (hex_text (x :: b)) with (hex_digit (x / 16) :: hex_digit (x mod 16) :: hex_text b).
  replace (x :: b) with (16 * (x / 16) + x mod 16 :: b) by (f_equal; lia).
  constructor; [apply hex_value_iff, hex_digit_ok; lia|apply hex_value_iff, hex_digit_ok; lia|exact IH].
Qed.

(** ** C64: hexadecimal text *)
(** What is accepted: an optional 0x, then two digits of either case per byte; nothing else. *)
Theorem C64_decode : forall (t : text) (b : bytes), try_bytes_from_hex_str t = Ok b <-> exists u, opt_0x t u /\ hex_denotes u b.
Proof.
  intros t b. unfold try_bytes_from_hex_str. rewrite hex_decode_iff. split.
  - intros H. exists (strip_0x t). split; [apply strip_0x_iff; reflexivity|exact H].
  - intros (u & Hu & H). apply strip_0x_iff in Hu. subst u. exact H.
Qed.
(** Encoding and decoding give the byte string back, with and without prefix. *)
Theorem C64_roundtrip : forall (b : bytes), all_bytes b -> try_bytes_from_hex_str (to_hex b) = Ok b.
Proof. intros b H. apply C64_decode. exists (hex_text b). split; [constructor|apply hex_text_denotes; exact H]. Qed.
Theorem C64_roundtrip_bare : forall (b : bytes), all_bytes b -> try_bytes_from_hex_str (hex_text b) = Ok b.
Proof.
  intros b H. apply C64_decode. exists (hex_text b). split; [|apply hex_text_denotes; exact H].
  apply without_0x. intros r Hr. destruct b as [|x b]; [discriminate Hr|].
  change (hex_text (x :: b)) with (hex_digit (x / 16) :: hex_digit (x mod 16) :: hex_text b) in Hr. change (codes "0x" ++ r) with (48 :: 120 :: r) in Hr. injection Hr as _ Hr _.
  unfold hex_digit in Hr. destruct (x mod 16 <? 10) eqn:Hl; lia.
Qed.
(** Case does not matter. *)
Theorem C64_case : forall (t t' : text) (b : bytes), Forall2 same_letter t t' -> (forall c, nth_error t 1 = Some c -> c <> 120 /\ c <> 88) ->
  try_bytes_from_hex_str t = Ok b -> try_bytes_from_hex_str t' = Ok b.
Proof.
  intros t t' b Hs Hx. rewrite !C64_decode. intros (u & Hu & Hd). exists t'.
  assert (Hno : forall w, (forall c, nth_error w 1 = Some c -> c <> 120 /\ c <> 88) -> forall r, w <> codes "0x" ++ r).
  { intros w Hw r ->. destruct (Hw 120 eq_refl) as [Hq _]. congruence. }
  assert (Htu : u = t). { destruct Hu as [v|v Hv]; [exfalso; eapply Hno; [exact Hx|reflexivity]|reflexivity]. } subst u.
  split.
  - apply without_0x. apply Hno. intros c Hc. destruct Hs as [|a a' ? ? _ [|b0 b1 ? ? Hb _]]; try discriminate Hc. cbn in Hc. injection Hc as ->. specialize (Hx b0 eq_refl). unfold same_letter in Hb. lia.
  - clear Hx Hno Hu. revert t' Hs. induction Hd as [|h l x y t b Hh Hl _ IH]; intros t' Hs; [inversion Hs; constructor|].
    inversion Hs as [|? h' ? t1 Eh Hs1]; subst. inversion Hs1 as [|? l' ? t2 El Hs2]; subst.
    assert (Hcase : forall a a' v, same_letter a a' -> hex_digit_is a v -> hex_digit_is a' v).
    { intros a a' v Ha Hd. apply hex_value_iff in Hd. apply hex_value_iff. unfold hex_value in *.
      destruct ((48 <=? a) && (a <=? 57)) eqn:E1.
      - destruct Ha as [<-|[?|?]]; [rewrite E1; exact Hd|exfalso; lia|exfalso; lia].
      - destruct ((97 <=? a) && (a <=? 102)) eqn:E2.
        + injection Hd as <-. destruct Ha as [<-|[?|[? ?]]]; [rewrite E1, E2; reflexivity|exfalso; lia|].
          replace ((48 <=? a') && (a' <=? 57)) with false by lia. replace ((97 <=? a') && (a' <=? 102)) with false by lia. replace ((65 <=? a') && (a' <=? 70)) with true by lia. f_equal. lia.
        + destruct ((65 <=? a) && (a <=? 70)) eqn:E3; [|discriminate]. injection Hd as <-. destruct Ha as [<-|[[? ?]|?]]; [rewrite E1, E2, E3; reflexivity| |exfalso; lia].
          replace ((48 <=? a') && (a' <=? 57)) with false by lia. replace ((97 <=? a') && (a' <=? 102)) with true by lia. f_equal. lia. }
    constructor; [eapply Hcase; eassumption|eapply Hcase; eassumption|apply IH; exact Hs2].
Qed.
(** Decoding is total: a byte string or an error, never a panic; an odd number of digits or a foreign character is an error. *)
Theorem C64_errors : forall (t : text), is_Ok (try_bytes_from_hex_str t) = true \/ try_bytes_from_hex_str t = Err EHex.
Proof.
  intros t. unfold try_bytes_from_hex_str, hex_decode. destruct (N.odd _); [right; reflexivity|]. generalize (strip_0x t) as u.
  assert (Hgen : forall n u, (length u <= n)%nat -> is_Ok (hex_pairs u) = true \/ hex_pairs u = Err EHex).
  { induction n as [|n IH]; intros [|h [|l u]] Hn; cbn [length] in Hn; try lia; auto. cbn [hex_pairs].
    destruct (hex_value h); [|auto]. destruct (hex_value l); [|auto]. cbn [ok_or rbind]. destruct (IH u ltac:(lia)) as [H|H]; [|rewrite H; auto].
    destruct (hex_pairs u); try discriminate H. auto. }
  intros u. exact (Hgen (length u) u (le_n _)).
Qed.
Theorem C64_odd : forall (t : text), N.odd (lenN t) = true -> try_bytes_from_hex_str t = Err EHex.
Proof.
  intros t H. destruct (C64_errors t) as [Hk|Hk]; [|exact Hk]. exfalso. destruct (try_bytes_from_hex_str t) as [b| | |] eqn:Hb; try discriminate Hk.
  apply C64_decode in Hb as (u & Hu & Hd). apply denotes_even in Hd. rewrite <- N.negb_even in H. assert (He : N.even (lenN t) = true).
  { destruct Hu as [t|t _].
    - replace (lenN (codes "0x" ++ t)) with (2 * (1 + lenN b)); [rewrite N.even_mul; reflexivity|]. unfold lenN in *. rewrite app_length. change (length (codes "0x")) with 2%nat. lia.
    - rewrite Hd, N.even_mul. reflexivity. }
  rewrite He in H. discriminate H.
Qed.
(** Distinct byte strings have distinct texts. *)
Theorem C64_injective : forall (a b : bytes), all_bytes a -> all_bytes b -> to_hex a = to_hex b -> a = b.
Proof. intros a b Ha Hb H. apply C64_roundtrip in Ha. apply C64_roundtrip in Hb. rewrite H in Ha. congruence. Qed.
(** A vector of [n] bytes accepts exactly the texts of [n] bytes; a bounded list those of at most [n] bytes. *)
Theorem C64_sized : forall (n : N) (t : text) (b : bytes),
  (byte_vector_from_hex n t = Ok b <-> try_bytes_from_hex_str t = Ok b /\ lenN b = n)
  /\ (byte_list_from_hex n t = Ok b <-> try_bytes_from_hex_str t = Ok b /\ lenN b <= n).
Proof.
  intros n t b. unfold byte_vector_from_hex, byte_list_from_hex. destruct (try_bytes_from_hex_str t) as [x| | |]; cbn [rbind];
    [|split; split; [discriminate|intros [H _]; discriminate H|discriminate|intros [H _]; discriminate H]..].
  split.
  - destruct (N.eqb_spec (lenN x) n) as [Hn|Hn]; split; [intros [= <-]; auto|intros [[= <-] _]; reflexivity|discriminate|intros [[= ->] Hx]; contradiction].
  - destruct (N.leb_spec (lenN x) n) as [Hn|Hn]; split; [intros [= <-]; auto|intros [[= <-] _]; reflexivity|discriminate|intros [[= ->] Hx]; lia].
Qed.
Example C64_example : to_hex [0; 171; 255] = txt "0x00abff" /\ try_bytes_from_hex_str (txt "0x00ABfF") = Ok [0; 171; 255]
  /\ try_bytes_from_hex_str (txt "0X00") = Err EHex /\ try_bytes_from_hex_str (txt "abc") = Err EHex /\ try_bytes_from_hex_str (txt "0x") = Ok []
  /\ Forall2 same_letter (txt "0aBF") (txt "0AbF") /\ (forall c, nth_error (txt "0aBF") 1 = Some c -> c <> 120 /\ c <> 88).
Proof.
  repeat (split; [vm_compute; reflexivity|]). split; [|vm_compute; intros c [= <-]; split; discriminate].
  unfold txt; cbn. repeat constructor; unfold same_letter; lia.
Qed.

(** ** Decimal integers *)
Definition dval (t : text) (acc : N) : N := fold_left (fun a c => 10 * a + (c - 48)) t acc.
Definition digits (t : text) : Prop := Forall (fun c => 48 <= c <= 57) t.
Lemma dval_ge t : forall acc, acc <= dval t acc.
Proof. induction t as [|c t IH]; intros acc; cbn; [lia|]. specialize (IH (10 * acc + (c - 48))). unfold dval in IH. lia. Qed.
Lemma cmul_some a b : a * b < 2 ^ 64 -> cmul a b = Some (a * b).
Proof. intros H. unfold cmul. replace (a * b <? U64) with true by (unfold U64; lia). reflexivity. Qed.
Lemma cadd_some a b : a + b < 2 ^ 64 -> cadd a b = Some (a + b).
Proof. intros H. unfold cadd. replace (a + b <? U64) with true by (unfold U64; lia). reflexivity. Qed.
Lemma dec_parse_iff t : forall acc n, acc < 2 ^ 64 -> (dec_parse t acc = Ok n <-> digits t /\ dval t acc = n /\ n < 2 ^ 64).
Proof.
  induction t as [|c t IH]; intros acc n Ha; cbn [dec_parse].
  - cbn. split; [intros [= <-]; split; [constructor|auto]|intros (_ & -> & _); reflexivity].
  - destruct ((48 <=? c) && (c <=? 57)) eqn:Hc.
    2: { split; [discriminate|]. intros (Hd & _). inversion Hd; subst. lia. }
    change (dval (c :: t) acc) with (dval t (10 * acc + (c - 48))).
    destruct (N.lt_ge_cases (10 * acc + (c - 48)) (2 ^ 64)) as [Hlt|Hge].
    + rewrite cmul_some by lia. cbn [ok_or rbind]. rewrite cadd_some by lia. cbn [ok_or rbind]. replace (acc * 10 + (c - 48)) with (10 * acc + (c - 48)) by lia.
      rewrite IH by exact Hlt. split; intros (Hd & Hv & Hn); (split; [|auto]); [constructor; [lia|exact Hd]|inversion Hd; assumption].
    + split.
      * intros H. apply rbind_ok_inv in H as (m & Hm & H). apply rbind_ok_inv in H as (a & Hx & _).
        unfold cmul, cadd in *. destruct (acc * 10 <? U64) eqn:E1; [|discriminate Hm]. injection Hm as <-. destruct (acc * 10 + (c - 48) <? U64) eqn:E2; [|discriminate Hx]. unfold U64 in E2. lia.
      * intros (_ & Hv & Hn). pose proof (dval_ge t (10 * acc + (c - 48))). lia.
Qed.
Lemma dec_denotes_iff t n : dec_denotes t n <-> t <> [] /\ digits t /\ dval t 0 = n.
Proof.
  split.
  - intros H. induction H as [d Hd|t n d _ (Hne & Hg & Hv) Hd].
    + split; [discriminate|]. split; [repeat constructor; lia|]. cbn. lia.
    + split; [destruct t; discriminate|]. split; [apply Forall_app; split; [exact Hg|repeat constructor; lia]|]. unfold dval in *. rewrite fold_left_app, Hv. cbn. lia.
  - revert n. induction t as [|c t IH] using rev_ind; intros n (Hne & Hg & Hv); [contradiction|].
    apply Forall_app in Hg as [Hg Hc]. inversion Hc; subst. unfold dval. rewrite fold_left_app. cbn [fold_left].
    replace c with (48 + (c - 48)) at 1 by lia. destruct t as [|c0 t].
    + cbn [app fold_left]. replace (10 * 0 + (c - 48)) with (c - 48) by lia. constructor. lia.
    + constructor; [|lia]. apply IH. split; [discriminate|]. split; [exact Hg|reflexivity].
Qed.
Lemma u64_parse_iff t n : u64_parse t = Ok n <-> n < 2 ^ 64 /\ exists u, dec_denotes u n /\ (t = u \/ t = 43 :: u).
Proof.
  assert (Hp : forall u, u <> [] -> (dec_parse u 0 = Ok n <-> n < 2 ^ 64 /\ dec_denotes u n)).
  { intros u Hu. rewrite dec_parse_iff by lia. rewrite dec_denotes_iff. tauto. }
  assert (Hno : forall u m, ~ dec_denotes (43 :: u) m). { intros u m H. apply dec_denotes_iff in H as (_ & Hd & _). inversion Hd; subst. lia. }
  destruct t as [|c t].
  - cbn. split; [discriminate|]. intros (_ & u & Hu & [<-|H]); [apply dec_denotes_iff in Hu as [Hu _]; contradiction|discriminate].
  - destruct (N.eq_dec c 43) as [->|Hc].
    + destruct t as [|d t].
      * cbn. split; [discriminate|]. intros (_ & u & Hu & [<-|[= <-]]); [destruct (Hno _ _ Hu)|apply dec_denotes_iff in Hu as [Hu _]; contradiction].
      * change (u64_parse (43 :: d :: t)) with (dec_parse (d :: t) 0). rewrite Hp by discriminate. split.
        -- intros [Hn Hd]. split; [exact Hn|]. exists (d :: t). auto.
        -- intros (Hn & u & Hu & [<-|[= <-]]); [destruct (Hno _ _ Hu)|auto].
    + assert (He : u64_parse (c :: t) = dec_parse (c :: t) 0).
      { unfold u64_parse. destruct c as [|p]; [reflexivity|]. do 6 (try (destruct p as [p|p|]; try reflexivity)). exfalso; apply Hc; reflexivity. }
      rewrite He, Hp by discriminate. split.
      * intros [Hn Hd]. split; [exact Hn|]. exists (c :: t). auto.
      * intros (Hn & u & Hu & [<-|[= -> _]]); [auto|congruence].
Qed.
Lemma dec_text_denotes : forall k n, n < 10 ^ N.of_nat (S k) -> dec_denotes (dec_text (S k) n) n.
Proof.
  induction k as [|k IH]; intros n Hn.
  - cbn [dec_text]. change (10 ^ N.of_nat 1) with 10 in Hn. replace (n <? 10) with true by lia. constructor. lia.
  - remember (S k) as k'. cbn [dec_text]. destruct (N.ltb_spec n 10); [constructor; lia|].
    replace n with (10 * (n / 10) + n mod 10) at 3 by lia. constructor; [|lia]. apply IH.
    rewrite Nnat.Nat2N.inj_succ, N.pow_succ_r' in Hn. apply N.div_lt_upper_bound; lia.
Qed.
Lemma u64_text_denotes n : n < 2 ^ 64 -> dec_denotes (u64_text n) n.
Proof. intros H. apply (dec_text_denotes 19). change (10 ^ N.of_nat 20) with 100000000000000000000. lia. Qed.
Lemma u64_roundtrip n : n < 2 ^ 64 -> u64_parse (u64_text n) = Ok n.
Proof. intros H. apply u64_parse_iff. split; [exact H|]. exists (u64_text n). split; [apply u64_text_denotes; exact H|auto]. Qed.

(** ** C68: identifiers and integers as text *)
(** Integers: exactly the decimal numerals of values below 2^64 (with an optional plus sign) are read, and what is written is read back. *)
Theorem C68_integers : forall (n : N), n < 2 ^ 64 -> dec_denotes (u64_text n) n /\ u64_parse (u64_text n) = Ok n.
Proof. intros n H. split; [apply u64_text_denotes, H|apply u64_roundtrip, H]. Qed.
Theorem C68_integers_accepted : forall (t : text) (n : N), u64_parse t = Ok n <-> n < 2 ^ 64 /\ exists u, dec_denotes u n /\ (t = u \/ t = codes "+" ++ u).
Proof. exact u64_parse_iff. Qed.

Lemma text_eqb_eq a : forall b, text_eqb a b = true <-> a = b.
Proof.
  induction a as [|x a IH]; intros [|y b]; cbn; try (split; [discriminate|congruence]); [split; auto|]. rewrite andb_true_iff, N.eqb_eq, IH. split; [intros [-> ->]; reflexivity|intros [= -> ->]; auto].
Qed.
Lemma not_digits t w c : In c w -> ~ (48 <= c <= 57) -> digits t -> text_eqb t w = false.
Proof.
  intros Hi Hc Hd. destruct (text_eqb t w) eqn:He; [|reflexivity]. apply text_eqb_eq in He. subst w. exfalso. apply Hc. unfold digits in Hd. rewrite Forall_forall in Hd. auto.
Qed.
Lemma digits_hex_parse r : u64_parse (to_hex r) = Err EParse.
Proof. reflexivity. Qed.
(** A state identifier with an in-range slot or a 32-byte root is read back from its text. *)
Definition state_id_wf (i : StateId) : Prop := match i with SSlot s => s < 2 ^ 64 | SRoot r => all_bytes r /\ lenN r = 32 | _ => True end.
Definition block_id_wf (i : BlockId) : Prop := match i with BSlot s => s < 2 ^ 64 | BRoot r => all_bytes r /\ lenN r = 32 | _ => True end.
Theorem C68_state_id_roundtrip : forall (i : StateId), state_id_wf i -> state_id_parse (state_id_text i) = Ok i.
Proof.
  intros [| | | |s|r] Hw; [reflexivity..| |].
  - cbn [state_id_wf state_id_text] in *. pose proof (u64_text_denotes s Hw) as Hd. apply dec_denotes_iff in Hd as (_ & Hd & _). unfold state_id_parse.
    assert (Hn : forall w c, In c w -> ~ (48 <= c <= 57) -> text_eqb (u64_text s) w = false) by (intros w c Hi Hc; eapply not_digits; eassumption).
    rewrite (Hn (txt "finalized") 102) by (cbn; tauto || lia). rewrite (Hn (txt "justified") 106) by (cbn; tauto || lia).
    rewrite (Hn (txt "head") 104) by (cbn; tauto || lia). rewrite (Hn (txt "genesis") 103) by (cbn; tauto || lia).
    rewrite u64_roundtrip by exact Hw. reflexivity.
  - destruct Hw as [Hb Hl]. cbn [state_id_text]. unfold state_id_parse.
    assert (Hx : forall w, nth_error w 1 <> Some 120 -> text_eqb (to_hex r) w = false).
    { intros w Hw. destruct (text_eqb (to_hex r) w) eqn:He; [|reflexivity]. apply text_eqb_eq in He. subst w. exfalso. apply Hw. reflexivity. }
    rewrite !Hx by discriminate. rewrite digits_hex_parse, C64_roundtrip by exact Hb. cbn [rbind]. rewrite Hl. reflexivity.
Qed.
(** Hence different identifiers have different texts; the same holds for block identifiers, which have the texts of state identifiers. *)
Theorem C68_state_id_injective : forall (i j : StateId), state_id_wf i -> state_id_wf j -> state_id_text i = state_id_text j -> i = j.
Proof. intros i j Hi Hj H. apply C68_state_id_roundtrip in Hi. apply C68_state_id_roundtrip in Hj. rewrite H in Hi. congruence. Qed.
Theorem C68_block_id_injective : forall (i j : BlockId), block_id_wf i -> block_id_wf j -> block_id_text i = block_id_text j -> i = j.
Proof.
  pose (f := fun i => match i with BHead => SHead | BGenesis => SGenesis | BFinalized => SFinalized | BSlot s => SSlot s | BRoot r => SRoot r end).
  assert (Hf : forall i, state_id_text (f i) = block_id_text i) by (intros []; reflexivity).
  intros i j Hi Hj H. assert (Hs : f i = f j). { apply C68_state_id_injective; [destruct i; exact Hi|destruct j; exact Hj|rewrite !Hf; exact H]. }
  destruct i, j; cbn in Hs; congruence.
Qed.
(** What reading accepts: one of the four names, else a decimal slot, else the hex text of 32 bytes. *)
Theorem C68_state_id_accepted : forall (t : text) (i : StateId), state_id_parse t = Ok i ->
  t = state_id_text i \/ (exists s, i = SSlot s /\ s < 2 ^ 64 /\ exists u, dec_denotes u s /\ (t = u \/ t = codes "+" ++ u))
  \/ (exists r, i = SRoot r /\ lenN r = 32 /\ exists u, opt_0x t u /\ hex_denotes u r).
Proof.
  intros t i. unfold state_id_parse.
  destruct (text_eqb t (txt "finalized")) eqn:E1; [intros [= <-]; left; apply text_eqb_eq; exact E1|].
  destruct (text_eqb t (txt "justified")) eqn:E2; [intros [= <-]; left; apply text_eqb_eq; exact E2|].
  destruct (text_eqb t (txt "head")) eqn:E3; [intros [= <-]; left; apply text_eqb_eq; exact E3|].
  destruct (text_eqb t (txt "genesis")) eqn:E4; [intros [= <-]; left; apply text_eqb_eq; exact E4|].
  assert (Hroot : (let! b := try_bytes_from_hex_str t in if lenN b =? 32 then Ok (SRoot b) else Err ESimpleSerialize) = Ok i ->
    exists r, i = SRoot r /\ lenN r = 32 /\ exists u, opt_0x t u /\ hex_denotes u r).
  { intros H. apply rbind_ok_inv in H as (b & Hb & H). destruct (N.eqb_spec (lenN b) 32); [|discriminate]. injection H as <-. exists b. split; [reflexivity|]. split; [assumption|]. apply C64_decode. exact Hb. }
  destruct (u64_parse t) as [s| | |] eqn:Hs; try (intros H; right; right; apply Hroot; exact H).
  intros [= <-]. right; left. exists s. split; [reflexivity|]. apply u64_parse_iff. exact Hs.
Qed.
(** The named networks are read back from their text ... *)
Theorem C68_named_networks : forall (n : Network), (forall dir, n <> Custom dir) -> network_of_text (network_text n) = n.
Proof. intros [| | | | |dir] H; [reflexivity..|]. destruct (H dir eq_refl). Qed.
(** ... but no custom network is: its text names the configuration file, and reading takes any unknown text for the directory itself. *)
Theorem C68_custom_network_refuted : forall (dir : text), network_of_text (network_text (Custom dir)) <> Custom dir.
Proof.
  intros dir. cbn [network_text].
  assert (Hx : forall w, nth_error w 6 <> Some 32 -> text_eqb (txt "custom (" ++ dir ++ txt "/config.yaml)") w = false).
  { intros w Hw. destruct (text_eqb _ w) eqn:He; [|reflexivity]. apply text_eqb_eq in He. subst w. exfalso. apply Hw. reflexivity. }
  unfold network_of_text. rewrite !Hx by discriminate. intros [= H]. apply (f_equal (@length N)) in H. cbn in H. rewrite app_length in H. cbn in H. lia.
Qed.
Example C68_example : state_id_text (SSlot 1234) = txt "1234" /\ state_id_parse (txt "+1234") = Ok (SSlot 1234) /\ state_id_parse (txt "18446744073709551616") = Err ESimpleSerialize
  /\ state_id_wf (SSlot 1234) /\ state_id_wf (SRoot (repeatN 7 32)) /\ network_of_text (txt "hoodi") = Hoodi.
Proof. repeat (split; [vm_compute; reflexivity|]). split; [|vm_compute; reflexivity]. split; [|reflexivity]. cbn. repeat constructor. Qed.

(** ** C79: genesis times of the networks *)
(** The four networks with a known genesis time have the recorded one ... *)
Theorem C79_genesis_time_partial : forall (n : Network), n <> Hoodi -> (forall dir, n <> Custom dir) -> exists t, network_genesis_time n = Ok t.
Proof. intros [| | | | |dir] H Hc; cbn; eauto; [contradiction|destruct (Hc dir eq_refl)]. Qed.
(** ... but the named network Hoodi, for which a configuration is built in, has none. *)
Theorem C79_hoodi_refuted : network_genesis_time Hoodi = Err EUnknownGenesisTime.
Proof. reflexivity. Qed.
(** The genesis time inferred from a configuration is that of its network for the test networks, and is not for mainnet. *)
Theorem C79_typical : forall (c : bool),
  typical_genesis_time ctx_goerli c = network_genesis_time Goerli /\ typical_genesis_time ctx_sepolia c = network_genesis_time Sepolia
  /\ typical_genesis_time ctx_holesky c = network_genesis_time Holesky /\ typical_genesis_time ctx_mainnet c <> network_genesis_time Mainnet.
Proof. intros []; vm_compute; (split; [reflexivity|split; [reflexivity|split; [reflexivity|discriminate]]]). Qed.
Example C79_example : exists t, network_genesis_time Sepolia = Ok t /\ 0 < t.
Proof. eexists. split; [reflexivity|lia]. Qed.

Print Assumptions C64_decode.
Print Assumptions C64_roundtrip.
Print Assumptions C64_roundtrip_bare.
Print Assumptions C64_case.
Print Assumptions C64_errors.
Print Assumptions C64_odd.
Print Assumptions C64_injective.
Print Assumptions C64_sized.
Print Assumptions C68_integers.
Print Assumptions C68_integers_accepted.
Print Assumptions C68_state_id_roundtrip.
Print Assumptions C68_state_id_injective.
Print Assumptions C68_block_id_injective.
Print Assumptions C68_state_id_accepted.
Print Assumptions C68_named_networks.
Print Assumptions C68_custom_network_refuted.
Print Assumptions C79_genesis_time_partial.
Print Assumptions C79_hoodi_refuted.
Print Assumptions C79_typical.
