(** * Keys, signatures and their aggregation: ethereum-consensus/src/crypto/bls.rs, signing.rs, builder/mod.rs

    The curve arithmetic is the blst library (not in /repo): it enters as a record of group operations, encodings and the pairing. The blst entry points that
    the wrappers call ([verify], [aggregate], [aggregate_verify], [fast_aggregate_verify], [key_validate]) are written out over that record after blst's
    documentation; the wrappers of bls.rs are modelled line by line over them. *)
From Verif Require Import Base Types Ctx Env Helpers.

(** blst min_pk: public keys in G1, signatures in G2, pairing into GT *)
Record Blst : Type := mkBlst {
  G1 : Type; G2 : Type; GT : Type;
  g1_gen : G1; g1_inf : G1; g1_add : G1 -> G1 -> G1; g1_is_inf : G1 -> bool; g1_in : G1 -> bool;
  g2_inf : G2; g2_add : G2 -> G2 -> G2; g2_in : G2 -> bool;
  gt_one : GT; gt_mul : GT -> GT -> GT; gt_eqb : GT -> GT -> bool;
  pair_ : G1 -> G2 -> GT;
  hash_g2 : bytes -> G2;                         (* hash to curve with BLS_DST (bls.rs:22) *)
  g1_encode : G1 -> bytes; g1_decode : bytes -> option G1;
  g2_encode : G2 -> bytes; g2_decode : bytes -> option G2;
  order : N                                      (* of the groups *)
}.

Section Bls.
Variable B : Blst.

(** bls.rs:23,25 *)
Definition BLS_PUBLIC_KEY_BYTES_LEN : N := 48.
Definition BLS_SIGNATURE_BYTES_LEN : N := 96.

Definition g1_times (k : N) (p : G1 B) : G1 B := N.iter k (g1_add B p) (g1_inf B).
Definition g2_times (k : N) (p : G2 B) : G2 B := N.iter k (g2_add B p) (g2_inf B).

(** bls.rs:280-288, 331-339 [TryFrom<&[u8]>] followed by [unwrap]: the length is checked *)
Definition public_key_bytes (l : bytes) : res bytes := if lenN l =? BLS_PUBLIC_KEY_BYTES_LEN then Ok l else Panic.
Definition signature_bytes (l : bytes) : res bytes := if lenN l =? BLS_SIGNATURE_BYTES_LEN then Ok l else Panic.

(** blst [PublicKey::key_validate]: decode, not infinity, in the group. bls.rs:290-296 *)
Definition validate (p : G1 B) : bool := negb (g1_is_inf B p) && g1_in B p.
Definition key_validate (pk : bytes) : res (G1 B) :=
  match g1_decode B pk with
  | Some p => if validate p then Ok p else Err EBls
  | None => Err EBls
  end.
(** blst [Signature::from_bytes]: decode (no group check). bls.rs:341-347 *)
Definition sig_from_bytes (sg : bytes) : res (G2 B) := match g2_decode B sg with Some s => Ok s | None => Err EBls end.

(** blst [aggregate_verify]: a non-empty list of keys, as many messages; group check of the signature; no key at infinity; the pairing equation *)
Fixpoint pairings (ps : list (G1 B)) (msgs : list bytes) : GT B :=
  match ps, msgs with
  | p :: pt, m :: mt => gt_mul B (pair_ B p (hash_g2 B m)) (pairings pt mt)
  | _, _ => gt_one B
  end.
Definition blst_aggregate_verify (s : G2 B) (msgs : list bytes) (ps : list (G1 B)) (pks_validate : bool) : bool :=
  negb (lenN ps =? 0) && (lenN msgs =? lenN ps) && g2_in B s && forallb (fun p => negb (g1_is_inf B p)) ps &&
  (negb pks_validate || forallb validate ps) && gt_eqb B (pairings ps msgs) (pair_ B (g1_gen B) s).

(** bls.rs:64-77; blst [verify] is [aggregate_verify] on one message and one key *)
Definition verify_signature (public_key msg signature : bytes) : res unit :=
  let! p := key_validate public_key in
  let! s := sig_from_bytes signature in
  if blst_aggregate_verify s [msg] [p] true then Ok tt else Err EBls.

Definition g1_sum (ps : list (G1 B)) : G1 B := match ps with [] => g1_inf B | p :: t => fold_left (g1_add B) t p end.
Definition g2_sum (ss : list (G2 B)) : G2 B := match ss with [] => g2_inf B | s :: t => fold_left (g2_add B) t s end.

(** bls.rs:79-93; blst checks the group of every signature *)
Definition aggregate (signatures : list bytes) : res bytes :=
  match signatures with
  | [] => Err EBls
  | _ =>
      let! ss := rmap sig_from_bytes signatures in
      if forallb (g2_in B) ss then signature_bytes (g2_encode B (g2_sum ss)) else Err EBls
  end.

(** bls.rs:95-112 *)
Definition aggregate_verify (public_keys msgs : list bytes) (signature : bytes) : res unit :=
  let! ps := rmap key_validate public_keys in
  let! s := sig_from_bytes signature in
  if blst_aggregate_verify s msgs ps true then Ok tt else Err EBls.

(** bls.rs:114-132; blst [fast_aggregate_verify]: no keys is an error; otherwise verify under the sum of the keys *)
Definition fast_aggregate_verify (public_keys : list bytes) (msg signature : bytes) : res unit :=
  let! ps := rmap key_validate public_keys in
  let! s := sig_from_bytes signature in
  if negb (lenN ps =? 0) && blst_aggregate_verify s [msg] [g1_sum ps] false then Ok tt else Err EBls.

(** bls.rs:135-148 *)
Definition eth_aggregate_public_keys (public_keys : list bytes) : res bytes :=
  match public_keys with
  | [] => Err EBls
  | _ =>
      let! ps := rmap key_validate public_keys in
      if forallb validate ps then public_key_bytes (g1_encode B (g1_sum ps)) else Err EBls
  end.

(** bls.rs:349-360 *)
Definition INFINITY_COMPRESSED_SIGNATURE : bytes := 192 :: repeat 0 95.
Definition is_infinity (signature : bytes) : bool := bytes_eqb signature INFINITY_COMPRESSED_SIGNATURE.

(** bls.rs:150-160 *)
Definition eth_fast_aggregate_verify (public_keys : list bytes) (message signature : bytes) : res unit :=
  if (lenN public_keys =? 0) && is_infinity signature then Ok tt else fast_aggregate_verify public_keys message signature.

(** bls.rs:190-223: a secret key is a scalar; blst refuses zero and anything not below the order *)
Definition secret_ok (k : N) : bool := (0 <? k) && (k <? order B).
Definition public_key (k : N) : res bytes := public_key_bytes (g1_encode B (g1_times k (g1_gen B))).
Definition sign (k : N) (msg : bytes) : res bytes := signature_bytes (g2_encode B (g2_times k (hash_g2 B msg))).

Section Env.
Variable E : Env.
(** signing.rs:24-31 *)
Definition sign_with_domain (o : SszObj) (k : N) (domain : bytes) : res bytes :=
  let! signing_root := compute_signing_root E o domain in sign k signing_root.
(** builder/mod.rs:26-29 *)
Definition compute_builder_domain : res bytes := compute_domain E DApplicationBuilder None None.
End Env.
End Bls.
