(** * Property theorems: blob packing and framing *)
From Verif Require Import Base BaseLemmas StLemmas Blobs SpecBlobs BlobProofs.

(** ** C66: packed field elements are canonical *)
(** Packing any bytes succeeds, every blob is a sequence of [elems] canonical field elements, and no more blobs are used than the
    254 bits per element require. *)
Theorem C66_canonical : forall (elems : N) (data : bytes), 0 < elems -> Forall (fun x => x < 256) data ->
  exists blobs, pack_into_blobs elems data = Ok blobs /\ Forall (canonical_blob elems) blobs
    /\ (lenN blobs = 1 \/ 254 * elems * (lenN blobs - 1) < 8 * lenN data).
Proof. intros elems data He Hb. destruct (unpack_pack elems data He Hb) as (blobs & H1 & H2 & H3 & _). exists blobs. auto. Qed.
Theorem C66_order : BLS_MODULUS = FIELD_ORDER /\ 2 ^ 254 < FIELD_ORDER.
Proof. split; reflexivity. Qed.
(** A bit string of at most 254 bits is encoded by its value, shifted to the top of the 254 usable bits. *)
Theorem C66_field_element : forall (src : list bool), lenN src <= 254 ->
  exists w, field_element_from_bits src = Ok w /\ lenN w = 32 /\ view_bits w = [false; false] ++ src ++ repeatN false (254 - lenN src).
Proof. intros src H. exists (fe src). split; [apply field_element_run, H|]. split; [apply fe_len|]. apply fe_view. exact H. Qed.
Example C66_example : exists w, field_element_from_bits [true; true] = Ok w /\ nthN w 0 = Some 48.
Proof. eexists. split; vm_compute; reflexivity. Qed.

(** ** C65: what is packed is unpacked *)
Lemma overfull_4096 n : overfull BLOB_ELEMENTS n <-> exists k j, 1 <= k /\ 1 <= j <= 31 /\ n = 130048 * k + j.
Proof.
  unfold overfull, BLOB_ELEMENTS. split.
  - intros (H1 & H2 & H3). exists (8 * n / 254 / 4096), (n - 130048 * (8 * n / 254 / 4096)). lia.
  - intros (k & j & Hk & Hj & ->). assert (Hq : 8 * (130048 * k + j) / 254 = 4096 * k) by lia. rewrite Hq. split; [lia|]. split; [rewrite N.mul_comm, N.mod_mul; lia|]. lia.
Qed.
Definition fits_exactly (n : N) : Prop := forall k j, 1 <= k -> 1 <= j <= 31 -> n <> 130048 * k + j.
Lemma header_bytes n h : sized_header n = Ok h -> n < 2 ^ 32 /\ lenN h = 5 /\ Forall (fun x => x < 256) h /\ h = 0 :: to_be 4 n.
Proof.
  unfold sized_header. destruct (N.ltb_spec n (2 ^ 32)); [|discriminate]. intros [= <-]. split; [assumption|]. split; [reflexivity|]. split; [|reflexivity].
  constructor; [reflexivity|]. unfold to_be. apply Forall_rev. cbn [to_le]. repeat constructor; apply N.mod_lt; lia.
Qed.
Lemma payload_read n h payload tail : sized_header n = Ok h -> n < lenN payload + lenN tail + 5 -> n <= lenN payload + lenN tail ->
  payload_from_sized (h ++ payload ++ tail) = Ok (firstN n (payload ++ tail)).
Proof.
  intros Hh Hn Hl. apply header_bytes in Hh as (H32 & Hlen & _ & Hh). unfold payload_from_sized, HEADER_SIZE. rewrite !lenN_app, Hlen.
  replace (5 + (lenN payload + lenN tail) <? 5) with false by lia. rewrite firstN_app_exact, skipN_app_exact by exact Hlen. rewrite Hh. cbn [negb N.eqb SIZED_FRAMING_VERSION].
  assert (Hv : of_be (to_be 4 n) = n). { unfold of_be, to_be. rewrite rev_involutive. apply of_le_to_le_id. exact H32. }
  rewrite Hv. replace (5 + (lenN payload + lenN tail) <=? n) with false by lia. rewrite lenN_app. replace (n <=? lenN payload + lenN tail) with true by lia. reflexivity.
Qed.
Lemma encode_sized elems data h : sized_header (lenN data) = Ok h -> encode_blobs elems Sized data = pack_into_blobs elems (h ++ data).
Proof. intros H. unfold encode_blobs. rewrite H. reflexivity. Qed.
(** Sized framing: unless the framed data ends 1 to 31 bytes past a multiple of the capacity of a blob (130048 bytes), what was
    encoded is what is decoded, byte for byte. (Data of 4 GiB or more is refused.) *)
Theorem C65_sized_partial : forall (data : bytes), Forall (fun x => x < 256) data -> lenN data < 2 ^ 32 -> fits_exactly (lenN data + 5) ->
  exists blobs, encode_blobs BLOB_ELEMENTS Sized data = Ok blobs /\ decode_blobs BLOB_ELEMENTS Sized blobs = Ok data.
Proof.
  intros data Hb Hn Hf. destruct (sized_header (lenN data)) as [h| | |] eqn:Hh; try (unfold sized_header in Hh; replace (lenN data <? 2 ^ 32) with true in Hh by lia; discriminate Hh).
  pose proof (header_bytes _ _ Hh) as (_ & Hl & Hhb & _). rewrite (encode_sized _ _ _ Hh).
  destruct (unpack_pack BLOB_ELEMENTS (h ++ data)) as (blobs & Hp & _ & _ & Hok & _); [reflexivity|apply Forall_app; auto|]. exists blobs. split; [exact Hp|].
  assert (Hno : ~ overfull BLOB_ELEMENTS (lenN (h ++ data))).
  { rewrite overfull_4096, lenN_app, Hl. intros (k & j & Hk & Hj & He). apply (Hf k j Hk Hj). lia. }
  destruct (Hok Hno) as [_ Hu]. unfold decode_blobs. rewrite Hu. cbn [rbind]. rewrite <- app_assoc. rewrite (payload_read _ _ _ _ Hh); [|lia|lia].
  f_equal. apply firstN_app_exact. reflexivity.
Qed.
Theorem C65_too_long : forall (elems : N) (data : bytes), 2 ^ 32 <= lenN data -> encode_blobs elems Sized data = Err EInvalidPayloadSize.
Proof. intros elems data H. unfold encode_blobs, sized_header. replace (lenN data <? 2 ^ 32) with false by lia. reflexivity. Qed.
(** At the excluded lengths the bytes of the last field element are silently replaced by zeros. *)
Theorem C65_data_loss_refuted : forall (data : bytes) (k j : N), Forall (fun x => x < 256) data -> lenN data < 2 ^ 32 -> 1 <= k -> 1 <= j <= 31 -> lenN data + 5 = 130048 * k + j ->
  exists blobs, encode_blobs BLOB_ELEMENTS Sized data = Ok blobs
    /\ decode_blobs BLOB_ELEMENTS Sized blobs = Ok (firstN (lenN data - j) data ++ repeatN 0 j).
Proof.
  intros data k j Hb Hn Hk Hj He. destruct (sized_header (lenN data)) as [h| | |] eqn:Hh; try (unfold sized_header in Hh; replace (lenN data <? 2 ^ 32) with true in Hh by lia; discriminate Hh).
  pose proof (header_bytes _ _ Hh) as (_ & Hl & Hhb & _). rewrite (encode_sized _ _ _ Hh).
  destruct (unpack_pack BLOB_ELEMENTS (h ++ data)) as (blobs & Hp & _ & _ & _ & Hbad); [reflexivity|apply Forall_app; auto|]. exists blobs. split; [exact Hp|].
  assert (Ho : overfull BLOB_ELEMENTS (lenN (h ++ data))).
  { rewrite overfull_4096, lenN_app, Hl. exists k, j. lia. }
  destruct (Hbad Ho (130048 * k)) as [Hm Hu]. { rewrite lenN_app, Hl. lia. }
  unfold decode_blobs. rewrite Hu. cbn [rbind]. rewrite firstN_app, Hl, (firstN_all _ h) by lia. rewrite <- app_assoc. unfold BLOB_ELEMENTS in *.
  set (tl := 32 * 4096 * lenN blobs - 130048 * k) in *. assert (Htl : 1024 <= tl) by lia. clearbody tl.
  replace (130048 * k - 5) with (lenN data - j) by lia.
  assert (Hd : lenN (firstN (lenN data - j) data) = lenN data - j) by (rewrite lenN_firstN; lia).
  rewrite (payload_read _ _ _ _ Hh); [|rewrite Hd, lenN_repeatN; lia|rewrite Hd, lenN_repeatN; lia]. f_equal. rewrite firstN_app, Hd, firstN_all by lia. f_equal. rewrite firstN_repeatN. f_equal. lia.
Qed.
(** so the data comes back only if those bytes were zero *)
Corollary C65_data_loss_iff_refuted : forall (data : bytes) (k j : N), Forall (fun x => x < 256) data -> lenN data < 2 ^ 32 -> 1 <= k -> 1 <= j <= 31 -> lenN data + 5 = 130048 * k + j ->
  ((exists blobs, encode_blobs BLOB_ELEMENTS Sized data = Ok blobs /\ decode_blobs BLOB_ELEMENTS Sized blobs = Ok data) <-> skipN (lenN data - j) data = repeatN 0 j).
Proof.
  intros data k j Hb Hn Hk Hj He. destruct (C65_data_loss_refuted data k j Hb Hn Hk Hj He) as (blobs & H1 & H2). split.
  - intros (bl & H3 & H4). rewrite H1 in H3. injection H3 as <-. rewrite H2 in H4. injection H4 as H4. rewrite <- (firstN_skipN (lenN data - j) data) in H4 at 3. apply app_inv_head in H4. auto.
  - intros H. exists blobs. split; [exact H1|]. rewrite H2. f_equal. rewrite <- H. apply firstN_skipN.
Qed.
(** Without framing the data comes back followed by zeros. *)
Theorem C65_raw_partial : forall (data : bytes), Forall (fun x => x < 256) data -> fits_exactly (lenN data) ->
  exists blobs pad, encode_blobs BLOB_ELEMENTS Raw data = Ok blobs /\ decode_blobs BLOB_ELEMENTS Raw blobs = Ok (data ++ repeatN 0 pad).
Proof.
  intros data Hb Hf. destruct (unpack_pack BLOB_ELEMENTS data) as (blobs & Hp & _ & _ & Hok & _); [reflexivity|exact Hb|].
  assert (Hno : ~ overfull BLOB_ELEMENTS (lenN data)). { rewrite overfull_4096. intros (k & j & Hk & Hj & He). exact (Hf k j Hk Hj He). }
  destruct (Hok Hno) as [_ Hu]. exists blobs. eexists. split; [exact Hp|]. unfold decode_blobs. rewrite Hu. reflexivity.
Qed.
(** the same packing with blobs of eight elements (254 bytes): two bytes past the end of a blob are lost *)
Example C65_example :
  (let! b := encode_blobs 8 Sized [1; 2; 3] in decode_blobs 8 Sized b) = Ok [1; 2; 3]
  /\ (let! b := encode_blobs 8 Sized (repeatN 7 251) in decode_blobs 8 Sized b) = Ok (repeatN 7 249 ++ [0; 0])
  /\ fits_exactly (3 + 5).
Proof. split; [vm_compute; reflexivity|]. split; [vm_compute; reflexivity|]. intros k j Hk Hj. lia. Qed.

(** ** C67: reading a sized frame *)
(** A frame is the version byte 0, the big-endian size, and at least that many bytes; the payload is returned. *)
Definition framed (stream payload : bytes) : Prop := exists size_bytes rest, stream = 0 :: size_bytes ++ payload ++ rest /\ lenN size_bytes = 4 /\ be_value size_bytes = lenN payload.
Theorem C67_accepts : forall (stream payload : bytes), payload_from_sized stream = Ok payload <-> framed stream payload.
Proof.
  intros stream payload. unfold framed, payload_from_sized, HEADER_SIZE, SIZED_FRAMING_VERSION. split.
  - destruct (N.ltb_spec (lenN stream) 5) as [|H5]; [discriminate|]. destruct (firstN 5 stream) as [|v sb] eqn:Hf; [discriminate|].
    destruct (N.eqb_spec v 0) as [->|]; [|discriminate]. cbn [negb]. destruct (lenN stream <=? of_be sb); [discriminate|]. destruct (N.leb_spec (of_be sb) (lenN (skipN 5 stream))) as [Hle|]; [|discriminate].
    intros [= <-]. exists sb, (skipN (of_be sb) (skipN 5 stream)). rewrite firstN_skipN. change (0 :: sb ++ skipN 5 stream) with ((0 :: sb) ++ skipN 5 stream). rewrite <- Hf, firstN_skipN. split; [reflexivity|].
    assert (Hl : lenN (0 :: sb) = 5) by (rewrite <- Hf, lenN_firstN; lia). rewrite lenN_cons in Hl. split; [lia|]. rewrite <- of_be_value, lenN_firstN. lia.
  - intros (sb & rest & -> & Hl & Hv). rewrite lenN_cons, !lenN_app, Hl. replace (4 + (lenN payload + lenN rest) + 1 <? 5) with false by lia.
    change (0 :: sb ++ payload ++ rest) with ((0 :: sb) ++ payload ++ rest). assert (Hl5 : lenN (0 :: sb) = 5) by (rewrite lenN_cons; lia).
    rewrite firstN_app_exact, skipN_app_exact by exact Hl5. change (negb (0 =? 0)) with false. cbn iota. rewrite of_be_value, Hv, lenN_app. replace (4 + (lenN payload + lenN rest) + 1 <=? lenN payload) with false by lia.
    replace (lenN payload <=? lenN payload + lenN rest) with true by lia. f_equal. apply firstN_app_exact. reflexivity.
Qed.
(** Reading never panics unless the declared size exceeds the number of bytes after the header by 1 to 4 ... *)
Theorem C67_no_panic_partial : forall (stream : bytes),
  (forall size_bytes rest, stream = 0 :: size_bytes ++ rest -> lenN size_bytes = 4 -> be_value size_bytes <= lenN rest \/ lenN rest + 5 <= be_value size_bytes) ->
  (exists payload, payload_from_sized stream = Ok payload) \/ (exists e, payload_from_sized stream = Err e).
Proof.
  intros stream H. unfold payload_from_sized, HEADER_SIZE, SIZED_FRAMING_VERSION. destruct (N.ltb_spec (lenN stream) 5) as [|H5]; [right; eauto|].
  destruct (firstN 5 stream) as [|v sb] eqn:Hf; [apply (f_equal (@lenN N)) in Hf; rewrite lenN_firstN in Hf; change (lenN (@nil N)) with 0 in Hf; lia|].
  destruct (N.eqb_spec v 0) as [->|]; [|right; cbn [negb]; eauto]. cbn [negb].
  assert (Hl : lenN (0 :: sb) = 5) by (rewrite <- Hf, lenN_firstN; lia). rewrite lenN_cons in Hl.
  destruct (H sb (skipN 5 stream)) as [Hs|Hs]; [change (0 :: sb ++ skipN 5 stream) with ((0 :: sb) ++ skipN 5 stream); rewrite <- Hf, firstN_skipN; reflexivity|lia|..];
    rewrite of_be_value; rewrite lenN_skipN in *.
  - replace (lenN stream <=? be_value sb) with false by lia. replace (be_value sb <=? lenN stream - 5) with true by lia. left; eauto.
  - replace (lenN stream <=? be_value sb) with true by lia. right; eauto.
Qed.
(** ... and in that range it always does: the size is compared with the length of the stream including the header. *)
Theorem C67_panic_refuted : forall (size_bytes rest : bytes), lenN size_bytes = 4 -> lenN rest < be_value size_bytes < lenN rest + 5 ->
  payload_from_sized (0 :: size_bytes ++ rest) = Panic.
Proof.
  intros sb rest Hl Hs. unfold payload_from_sized, HEADER_SIZE, SIZED_FRAMING_VERSION. rewrite lenN_cons, lenN_app, Hl. replace (4 + lenN rest + 1 <? 5) with false by lia.
  change (0 :: sb ++ rest) with ((0 :: sb) ++ rest). assert (Hl5 : lenN (0 :: sb) = 5) by (rewrite lenN_cons; lia).
  rewrite firstN_app_exact, skipN_app_exact by exact Hl5. change (negb (0 =? 0)) with false. cbn iota. rewrite of_be_value. replace (4 + lenN rest + 1 <=? be_value sb) with false by lia. replace (be_value sb <=? lenN rest) with false by lia. reflexivity.
Qed.
(** The errors. *)
Theorem C67_rejects : forall (stream : bytes),
  (lenN stream < 5 -> payload_from_sized stream = Err EExpectedHeaderForSizedFraming)
  /\ (5 <= lenN stream -> forall v, nthN stream 0 = Some v -> v <> 0 -> payload_from_sized stream = Err EUnsupportedSizedFramingVersion)
  /\ (forall size_bytes rest, stream = 0 :: size_bytes ++ rest -> lenN size_bytes = 4 -> lenN rest + 5 <= be_value size_bytes -> payload_from_sized stream = Err EInvalidPayloadSize).
Proof.
  intros stream. unfold payload_from_sized, HEADER_SIZE, SIZED_FRAMING_VERSION. split; [|split].
  - intros H. replace (lenN stream <? 5) with true by lia. reflexivity.
  - intros H v Hv Hn. replace (lenN stream <? 5) with false by lia. destruct stream as [|v0 st]; [discriminate Hv|]. injection Hv as ->. change (firstN 5 (v :: st)) with (v :: firstn 4 st). cbn iota beta. replace (v =? 0) with false by lia. reflexivity.
  - intros sb rest -> Hl Hs. rewrite lenN_cons, lenN_app, Hl. replace (4 + lenN rest + 1 <? 5) with false by lia.
    change (0 :: sb ++ rest) with ((0 :: sb) ++ rest). assert (Hl5 : lenN (0 :: sb) = 5) by (rewrite lenN_cons; lia).
    rewrite firstN_app_exact by exact Hl5. change (negb (0 =? 0)) with false. cbn iota. rewrite of_be_value. replace (4 + lenN rest + 1 <=? be_value sb) with true by lia. reflexivity.
Qed.
Example C67_example : payload_from_sized [0; 0; 0; 0; 2; 10; 11; 12] = Ok [10; 11] /\ payload_from_sized [0; 0; 0; 0; 4; 10; 11; 12] = Panic
  /\ payload_from_sized [0; 0; 0; 0; 8; 10; 11; 12] = Err EInvalidPayloadSize /\ framed [0; 0; 0; 0; 2; 10; 11; 12] [10; 11].
Proof. repeat (split; [vm_compute; reflexivity|]). exists [0; 0; 0; 2], [12]. split; [reflexivity|]. split; reflexivity. Qed.

Print Assumptions C66_canonical.
Print Assumptions C66_order.
Print Assumptions C66_field_element.
Print Assumptions C65_sized_partial.
Print Assumptions C65_too_long.
Print Assumptions C65_data_loss_refuted.
Print Assumptions C65_raw_partial.
Print Assumptions C67_accepts.
Print Assumptions C67_no_panic_partial.
Print Assumptions C67_panic_refuted.
Print Assumptions C67_rejects.
