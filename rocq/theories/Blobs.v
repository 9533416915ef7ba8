(** * The blob utilities of the command line tool: ethereum-consensus/src/bin/ec/blobs

    The tool is compiled for the mainnet preset, where a blob has 4096 field elements of 32 bytes. The number of field elements
    of a blob is a parameter [elems] here, so that small blobs can serve as examples; [BLOB_ELEMENTS] is the actual value.
    Reading standard input and the JSON text of blobs (their hex text, see Text.v) are not modelled. *)
From Verif Require Import Base.

(** mod.rs:12-17; kzg.rs [BYTES_PER_FIELD_ELEMENT] *)
Definition BITS_PER_FIELD_ELEMENT : N := 254.
Definition BYTES_PER_FIELD_ELEMENT : N := 32.
(** deneb/presets/mainnet.rs [FIELD_ELEMENTS_PER_BLOB]; [BYTES_PER_BLOB] is [BYTES_PER_FIELD_ELEMENT * FIELD_ELEMENTS_PER_BLOB] *)
Definition BLOB_ELEMENTS : N := 4096.
Definition blob_bytes (elems : N) : N := BYTES_PER_FIELD_ELEMENT * elems.
(** bin/ec/bls.rs:6-7 *)
Definition BLS_MODULUS : N := 52435875175126190479447740508185965837690552500527637822603658699938581184513.

(** ** Bit views (crate bitvec, order [Msb0]): the most significant bit of a byte comes first *)
Definition byte_bits (b : N) : list bool :=
  [N.testbit b 7; N.testbit b 6; N.testbit b 5; N.testbit b 4; N.testbit b 3; N.testbit b 2; N.testbit b 1; N.testbit b 0].
Definition view_bits (l : bytes) : list bool := flat_map byte_bits l.
Definition bits_byte (l : list bool) : N := fold_left (fun a (b : bool) => 2 * a + (if b then 1 else 0)) l 0.
(** the bytes under a view of [n] bytes *)
Fixpoint bits_bytes (n : nat) (l : list bool) : bytes :=
  match n with
  | O => []
  | S k => bits_byte (firstn 8 l) :: bits_bytes k (skipn 8 l)
  end.
(** [dst[pos..pos + src.len()].copy_from_bitslice(src)]: the range must lie within the slice *)
Definition copy_bits (dst : list bool) (pos : N) (src : list bool) : res (list bool) :=
  if pos + lenN src <=? lenN dst then Ok (firstN pos dst ++ src ++ skipN (pos + lenN src) dst) else Panic.
(** [chunks_exact(n)] and its [remainder()] *)
Fixpoint chunks {A} (k : nat) (n : N) (l : list A) : list (list A) :=
  match k with
  | O => []
  | S k' => firstN n l :: chunks k' n (skipN n l)
  end.
Definition chunks_exact {A} (n : N) (l : list A) : list (list A) := chunks (N.to_nat (lenN l / n)) n l.
Definition chunks_remainder {A} (n : N) (l : list A) : list A := skipN (n * (lenN l / n)) l.

(** ** encode.rs *)

(** encode.rs:15-27 *)
Definition field_element_from_bits (src : list bool) : res bytes :=
  let! dst := copy_bits (view_bits (repeatN 0 BYTES_PER_FIELD_ELEMENT)) 2 src in
  let field_element := bits_bytes (N.to_nat BYTES_PER_FIELD_ELEMENT) dst in
  if of_be field_element <? BLS_MODULUS then Ok field_element else Err EInvalidFieldElement.

(** encode.rs:35-43, the body of the loop *)
Definition pack_step (elems : N) (acc : list bytes * bytes) (src : list bool) : res (list bytes * bytes) :=
  let '(blobs, blob_buffer) := acc in
  let '(blobs, blob_buffer) := if lenN blob_buffer =? blob_bytes elems then (blobs ++ [blob_buffer], []) else (blobs, blob_buffer) in
  let! field_element := field_element_from_bits src in
  Ok (blobs, blob_buffer ++ field_element).
(** [Vec::resize] *)
Definition resize (n : N) (l : bytes) : bytes := firstN n l ++ repeatN 0 (n - lenN l).
(** encode.rs:30-59 *)
Definition pack_into_blobs (elems : N) (buffer : bytes) : res (list bytes) :=
  let bits := view_bits buffer in
  let! acc := rfold (pack_step elems) (chunks_exact BITS_PER_FIELD_ELEMENT bits) ([], []) in
  let '(blobs, blob_buffer) := acc in
  let! _ := rassert (lenN blob_buffer mod BYTES_PER_FIELD_ELEMENT =? 0) in
  let remainder := chunks_remainder BITS_PER_FIELD_ELEMENT bits in
  let! blob_buffer :=
    match remainder with
    | [] => Ok blob_buffer
    | _ => let! field_element := field_element_from_bits remainder in Ok (blob_buffer ++ field_element)
    end in
  let blob := resize (blob_bytes elems) blob_buffer in
  Ok (blobs ++ [blob]).

(** ** decode.rs *)

(** decode.rs:19-26, the body of the inner loop *)
Definition unpack_step (acc : list bool * N) (chunk : list bool) : res (list bool * N) :=
  let '(stream_bits, i) := acc in
  let src := skipN 2 chunk in
  let! stream_bits := copy_bits stream_bits (i * BITS_PER_FIELD_ELEMENT) src in
  Ok (stream_bits, i + 1).
(** decode.rs:10-32; the [debug_assert] on the remainder holds because a [Blob] has [BYTES_PER_BLOB] bytes by its type *)
Definition unpack_from_blobs (elems : N) (blobs : list bytes) : res bytes :=
  let size := lenN blobs * blob_bytes elems in
  let! acc := rfold (fun acc blob => rfold unpack_step (chunks_exact (8 * BYTES_PER_FIELD_ELEMENT) (view_bits blob)) acc) blobs
                (view_bits (repeatN 0 size), 0) in
  Ok (bits_bytes (N.to_nat size) (fst acc)).

(** ** framing.rs *)

(** framing.rs:7-15 *)
Inductive Framing : Type := Raw | Sized.
(** framing.rs:3-4 *)
Definition SIZED_FRAMING_VERSION : N := 0.
Definition HEADER_SIZE : N := 5.
(** framing.rs:19-25 *)
Definition sized_header (data_byte_length : N) : res bytes :=
  if data_byte_length <? 2 ^ 32 then Ok (SIZED_FRAMING_VERSION :: to_be 4 data_byte_length) else Err EInvalidPayloadSize.
(** framing.rs:29-45; [&payload[..size]] panics when the payload is shorter *)
Definition payload_from_sized (stream : bytes) : res bytes :=
  if lenN stream <? HEADER_SIZE then Err EExpectedHeaderForSizedFraming
  else
    let header := firstN HEADER_SIZE stream in
    let payload := skipN HEADER_SIZE stream in
    match header with
    | version :: size_bytes =>
      if negb (version =? SIZED_FRAMING_VERSION) then Err EUnsupportedSizedFramingVersion
      else
        let size := of_be size_bytes in
        if lenN stream <=? size then Err EInvalidPayloadSize
        else if size <=? lenN payload then Ok (firstN size payload) else Panic
    | [] => Panic
    end.

(** encode.rs:63-77 *)
Definition encode_blobs (elems : N) (framing : Framing) (buffer : bytes) : res (list bytes) :=
  let! prepared_buffer :=
    match framing with
    | Raw => Ok buffer
    | Sized => let! header := sized_header (lenN buffer) in Ok (header ++ buffer)
    end in
  pack_into_blobs elems prepared_buffer.
(** decode.rs:36-49 *)
Definition decode_blobs (elems : N) (framing : Framing) (blobs : list bytes) : res bytes :=
  let! result := unpack_from_blobs elems blobs in
  match framing with
  | Raw => Ok result
  | Sized => payload_from_sized result
  end.
