(** * C111, C112: peer identifiers and their text *)
From Verif Require Import Base BaseLemmas Peer SpecPeer PeerProofs.
From Coq Require Import Ascii String.

(** ** C111: round trips *)
(** base 58 is what it should be, in both directions, for all byte strings and all texts *)
Theorem C111_base58 (b s : bytes) : b58_encode b = s <-> base58_text b s.
Proof. apply encode_iff. Qed.
Theorem C111_base58_read (b s : bytes) : b58_decode s = Some b <-> octets b /\ base58_text b s.
Proof. rewrite decode_iff, encode_iff. tauto. Qed.
Lemma varint_octets fuel n : octets (write_varint fuel n).
Proof.
  revert n. induction fuel as [|k IH]; intros n; [constructor|]. cbn [write_varint]. destruct (N.ltb_spec n 128); (constructor; [|first [apply IH|constructor]]); [|pose proof (N.mod_lt n 128)]; lia.
Qed.
Lemma bytes_octets p : octets (p_digest p) -> octets (to_bytes p).
Proof. intros H. unfold to_bytes, octets. apply Forall_app. split; [apply varint_octets|]. apply Forall_app. split; [apply varint_octets|exact H]. Qed.
(** every peer identifier is read back from its bytes and from its text *)
Theorem C111_round_trip (p : PeerId) : supported (p_code p) (p_digest p) -> from_bytes (to_bytes p) = Some p /\ from_text (to_text p) = Some p.
Proof.
  intros [Ho Hs]. assert (A : from_bytes (to_bytes p) = Some p).
  { unfold from_bytes. rewrite from_to; [|destruct Hs as [[-> _]|[-> _]]; reflexivity|destruct Hs as [[_ H]|[_ H]]; lia]. apply from_multihash_iff. split; [reflexivity|]. tauto. }
  split; [exact A|]. unfold from_text, to_text. rewrite decode_encode; [exact A|]. apply bytes_octets. exact Ho.
Qed.
(** different identifiers have different texts *)
Theorem C111_distinct (p q : PeerId) : supported (p_code p) (p_digest p) -> supported (p_code q) (p_digest q) -> to_text p = to_text q -> p = q.
Proof. intros Hp Hq E. apply C111_round_trip in Hp as [_ Hp]. apply C111_round_trip in Hq as [_ Hq]. congruence. Qed.
(** whatever is read is a peer identifier of a supported kind *)
Theorem C111_only_supported (b s : bytes) (p : PeerId) : (octets b /\ from_bytes b = Some p) \/ from_text s = Some p -> supported (p_code p) (p_digest p).
Proof.
  assert (G : forall b, octets b -> from_bytes b = Some p -> supported (p_code p) (p_digest p)).
  { intros c Hc H. unfold from_bytes in H. destruct (multihash_from_bytes c) as [q|] eqn:Hq; [|discriminate]. apply from_multihash_iff in H as [-> H].
    destruct (multihash_inv c q Hc Hq) as (A1 & A2 & _). split; [exact A1|]. tauto. }
  intros [[Hb H]|H]; [exact (G b Hb H)|]. unfold from_text in H. destruct (b58_decode s) as [c|] eqn:Hd; [|discriminate]. apply decode_iff in Hd as [Hd _]. exact (G c Hd H).
Qed.
(** the identifier in the repository's own test (networking.rs, [test_id_str_format]) is of this kind *)
Example C111_example : exists p, supported (p_code p) (p_digest p) /\ to_text p = map N_of_ascii (list_ascii_of_string "QmYyQSo1c1Ym7orWxLYvCrM2EmxFTANf8wXmmE7DWjhx5N").
Proof.
  destruct (from_text (map N_of_ascii (list_ascii_of_string "QmYyQSo1c1Ym7orWxLYvCrM2EmxFTANf8wXmmE7DWjhx5N"))) as [p|] eqn:H; [|vm_compute in H; discriminate].
  exists p. split; [apply (C111_only_supported [] _ p (or_intror H))|]. vm_compute in H. injection H as <-. vm_compute. reflexivity.
Qed.

(** ** C112: one form for each identifier *)
(** An identifier should have one text and one byte form.  Missing: headers of more than ten bytes. *)
Theorem C112_one_form_partial (b : bytes) (p : PeerId) : octets b -> from_bytes b = Some p -> lenN b <= 10 + lenN (p_digest p) ->
  b = to_bytes p /\ forall s, b58_decode s = Some b -> s = to_text p.
Proof.
  intros Hb H Hl. assert (E : b = to_bytes p).
  { unfold from_bytes in H. destruct (multihash_from_bytes b) as [q|] eqn:Hq; [|discriminate]. apply from_multihash_iff in H as [-> H]. apply (multihash_inv b q Hb Hq). exact Hl. }
  split; [exact E|]. intros s Hs. apply decode_iff in Hs as [_ <-]. rewrite E. reflexivity.
Qed.
(** In a number of ten bytes the bits beyond the 64th are dropped instead of refused, so every identifier has other forms too *)
Definition long_header (p : PeerId) : bytes := (128 + p_code p) :: repeat 128 8 ++ 2 :: write_varint 10 (lenN (p_digest p)) ++ p_digest p.
Theorem C112_other_form_refuted (p : PeerId) : supported (p_code p) (p_digest p) ->
  exists b, octets b /\ b <> to_bytes p /\ b58_encode b <> to_text p /\ from_bytes b = Some p /\ from_text (b58_encode b) = Some p.
Proof.
  intros [Ho Hs]. exists (long_header p). assert (Hc : p_code p < 128) by (destruct Hs as [[-> _]|[-> _]]; reflexivity).
  assert (A0 : octets (long_header p)).
  { unfold long_header. constructor; [lia|]. apply Forall_app. split; [apply Forall_forall; intros x Hx; apply repeat_spec in Hx; lia|]. constructor; [lia|]. apply Forall_app. split; [apply varint_octets|exact Ho]. }
  assert (A1 : long_header p <> to_bytes p).
  { unfold long_header, to_bytes. cbn [write_varint]. destruct (N.ltb_spec (p_code p) 128); [|lia]. cbn [app]. intros [= E _]. lia. }
  assert (A2 : from_bytes (long_header p) = Some p).
  { assert (E : read_varint 10 0 0 (long_header p) = Some (p_code p, write_varint 10 (lenN (p_digest p)) ++ p_digest p)).
    { unfold long_header. cbn [repeat app read_varint]. destruct (N.ltb_spec (128 + p_code p) 128); [lia|]. cbv zeta.
      replace ((128 + p_code p) mod 128) with (p_code p) by (rewrite <- N.add_mod_idemp_l, N.mod_same, N.add_0_l by lia; rewrite N.mod_small; lia).
      destruct Hs as [[-> _]|[-> _]]; reflexivity. }
    unfold from_bytes, multihash_from_bytes. rewrite E. rewrite read_written by (change (2 ^ 64) with 18446744073709551616; destruct Hs as [[_ H]|[_ H]]; lia).
    destruct (N.ltb_spec 64 (lenN (p_digest p))); [destruct Hs as [[_ H0]|[_ H0]]; lia|]. rewrite N.eqb_refl. cbn [orb negb]. apply from_multihash_iff.
    destruct p as [c d]; cbn [p_code p_digest] in *. split; [reflexivity|]. tauto. }
  split; [exact A0|]. split; [exact A1|]. split; [|split; [exact A2|unfold from_text; rewrite decode_encode by exact A0; exact A2]].
  intros E. apply A1. assert (D : b58_decode (b58_encode (long_header p)) = b58_decode (to_text p)) by (rewrite E; reflexivity). unfold to_text in D.
  rewrite !decode_encode in D by (first [exact A0|apply bytes_octets; exact Ho]). congruence.
Qed.
Example C112_example : octets (18 :: 32 :: repeat 7 32) /\ from_bytes (18 :: 32 :: repeat 7 32) = Some (mkPeer 18 (repeat 7 32)) /\ lenN (18 :: 32 :: repeat 7 32) <= 10 + lenN (repeat 7 32).
Proof. split; [repeat constructor|]. split; [vm_compute; reflexivity|]. vm_compute. discriminate. Qed.

Print Assumptions C111_base58.
Print Assumptions C111_base58_read.
Print Assumptions C111_round_trip.
Print Assumptions C111_distinct.
Print Assumptions C111_only_supported.
Print Assumptions C112_one_form_partial.
Print Assumptions C112_other_form_refuted.
