(** * Validator keys and keystores of the command line tool: ethereum-consensus/src/bin/ec/validator

    SHA-256, HKDF, scrypt, AES-128, unicode normalization and the map from secret to public keys are oracles. Random choices (salt, initialization vector,
    passphrase) are arguments. A key path, in the code the text [m/12381/3600/i/0/0], is the list of its indices. The mnemonic words (crate bip39), the
    parallel iterators, uuid and JSON text of a keystore are not modelled. *)
From Verif Require Import Base Blobs.

Record KeyOracles : Type := {
  k_hash : bytes -> bytes;                            (* crypto/bls.rs:12-20 *)
  k_hkdf : bytes -> bytes -> bytes -> N -> bytes;     (* crate hkdf: [Hkdf::<Sha256>::new(Some(salt), ikm).expand(info, [0; len])] *)
  k_public : bytes -> bytes;                          (* crypto/bls.rs:215-218 *)
  k_scrypt : bytes -> bytes -> bytes;                 (* crate scrypt: the password hash for the recommended parameters *)
  k_aes : bytes -> bytes -> bytes;                    (* crate aes: one block of AES-128 under a key *)
  k_nfkd : list N -> list N;                          (* crate unicode-normalization: NFKD of a text, as its code points *)
  k_utf8 : list N -> bytes                            (* the UTF-8 bytes of a text *)
}.

(** ** keys.rs *)
(** keys.rs:8-12 *)
Definition SALT : bytes := [66; 76; 83; 45; 83; 73; 71; 45; 75; 69; 89; 71; 69; 78; 45; 83; 65; 76; 84; 45].
Definition KEY_L : N := 48.
Definition KEY_K : N := 32.
Definition LAMPORT_COUNT : N := 255.
Definition LAMPORT_L : N := KEY_K * LAMPORT_COUNT.

Record KeyPair : Type := mkKeyPair { kp_private : bytes; kp_public : bytes; kp_path : list N }.

Section Keys.
Variable K : KeyOracles.
(** debug assertions are compiled in *)
Variable dbg : bool.

(** keys.rs:30-35 *)
Definition bytes_split (m n : N) (input : bytes) : res (list bytes) :=
  let! _ := (if dbg then rassert ((m mod n =? 0) && (lenN input =? m)) else Ok tt) in
  Ok (chunks_exact n input).
(** keys.rs:37-41 *)
Definition ikm_to_lamport_secret_key (ikm salt : bytes) : res (list bytes) :=
  bytes_split LAMPORT_L KEY_K (k_hkdf K salt ikm [] LAMPORT_L).
(** keys.rs:43-45 *)
Definition flip_bits (input : bytes) : bytes := map (fun i => 255 - i) input.
(** keys.rs:47-65 *)
Definition parent_key_to_lamport_public_key (key : N) (index : N) : res bytes :=
  let salt := to_be 4 index in
  let ikm := to_be 32 key in
  let! lamport_0 := ikm_to_lamport_secret_key ikm salt in
  let not_ikm := flip_bits ikm in
  let! lamport_1 := ikm_to_lamport_secret_key not_ikm salt in
  let lamport_public_key := concat (map (k_hash K) lamport_0) ++ concat (map (k_hash K) lamport_1) in
  let! _ := (if dbg then rassert (lenN lamport_public_key =? 16320) else Ok tt) in
  Ok (k_hash K lamport_public_key).
(** keys.rs:77-85, the loop *)
Fixpoint hkdf_mod_r_loop (fuel : nat) (ikm salt : bytes) : res N :=
  match fuel with
  | O => Diverge
  | S fuel' =>
      let okm := k_hkdf K salt ikm [0; KEY_L] KEY_L in
      let key := of_be okm mod BLS_MODULUS in
      let salt := k_hash K salt in
      if key =? 0 then hkdf_mod_r_loop fuel' ikm salt else Ok key
  end.
(** keys.rs:67-93 *)
Definition hkdf_mod_r (fuel : nat) (input : bytes) : res N :=
  let salt := k_hash K SALT in
  let ikm := input ++ [0] in
  let! key := hkdf_mod_r_loop fuel ikm salt in
  let! _ := (if dbg then rassert (key mod BLS_MODULUS =? key) else Ok tt) in
  let key_bytes := to_be 48 key in
  Ok (of_be (skipN 16 key_bytes)).
(** keys.rs:95-98 *)
Definition derive_child_key (fuel : nat) (parent_key : N) (index : N) : res N :=
  let! compressed := parent_key_to_lamport_public_key parent_key index in
  hkdf_mod_r fuel compressed.
(** keys.rs:100-102 *)
Definition derive_master_sk (fuel : nat) (seed : bytes) : res N := hkdf_mod_r fuel seed.
(** crypto/bls.rs:191-201; blst: [SecretKey::from_bytes] accepts 32 bytes of a non-zero value below the group order *)
Definition secret_key_try_from (data : bytes) : res bytes :=
  if (lenN data =? 32) && (0 <? of_be data) && (of_be data <? BLS_MODULUS) then Ok data else Err EBls.
(** keys.rs:104-107 *)
Definition to_bls_secret_key (key : N) : res bytes :=
  match secret_key_try_from (to_be 32 key) with Ok b => Ok b | _ => Panic end.
(** keys.rs:109-113 *)
Definition to_key_pair (key : N) (path : list N) : res KeyPair :=
  let! private_key := to_bls_secret_key key in
  Ok (mkKeyPair private_key (k_public K private_key) path).
(** keys.rs:115-125 *)
Definition derive_validator_keys (fuel : nat) (root_key : N) (index : N) : res (KeyPair * KeyPair) :=
  let! withdrawal_key := rfold (fun key index => derive_child_key fuel key index) [12381; 3600; index; 0] root_key in
  let! signing_key := derive_child_key fuel withdrawal_key 0 in
  let! signing := to_key_pair signing_key [12381; 3600; index; 0; 0] in
  let! withdrawal := to_key_pair withdrawal_key [12381; 3600; index; 0] in
  Ok (signing, withdrawal).
(** keys.rs:127-130; the parallel iterator visits the indices in an unspecified order, but its results are in index order *)
Definition generate (fuel : nat) (seed : bytes) (start end_ : N) : res (list KeyPair * list KeyPair) :=
  let! root_key := derive_master_sk fuel seed in
  let! keys := rmap (fun i => derive_validator_keys fuel root_key i) (seqN start (N.to_nat (end_ - start))) in
  Ok (map fst keys, map snd keys).

(** ** keystores.rs *)
Record Kdf : Type := mkKdf { kdf_salt : bytes; kdf_message : bytes }.
Record Cipher : Type := mkCipher { cipher_iv : bytes; cipher_message : bytes }.
Record Keystore : Type := mkKeystore { ks_kdf : Kdf; ks_checksum : bytes; ks_cipher : Cipher; ks_public_key : bytes; ks_path : list N; ks_version : N }.

(** [char::is_control]: the unicode category Cc *)
Definition is_control (c : N) : bool := (c <? 32) || ((127 <=? c) && (c <? 160)).
(** keystores.rs:72-91 *)
Definition kdf_new (passphrase : list N) (salt : bytes) : Kdf :=
  let passphrase := filter (fun c => negb (is_control c)) (k_nfkd K passphrase) in
  mkKdf salt (k_scrypt K (k_utf8 K passphrase) salt).
(** keystores.rs:101-103; slicing panics when too short *)
Definition encryption_key (k : Kdf) : res bytes := if 16 <=? lenN (kdf_message k) then Ok (firstN 16 (kdf_message k)) else Panic.
(** keystores.rs:105-107 *)
Definition checksum_salt (k : Kdf) : res bytes := if 16 <=? lenN (kdf_message k) then Ok (skipN 16 (kdf_message k)) else Panic.
(** crate ctr, [Ctr64BE]: block [i] encrypts the first 8 bytes of the initialization vector followed by its last 8 bytes, as a big-endian number, plus [i]
    modulo 2^64 *)
Definition ctr64_block (iv : bytes) (i : N) : bytes := firstN 8 iv ++ to_be 8 ((of_be (skipN 8 iv) + i) mod 2 ^ 64).
Definition apply_keystream (key iv message : bytes) : bytes :=
  xorB message (concat (map (fun i => k_aes K key (ctr64_block iv i)) (rangeN ((lenN message + 15) / 16)))).
(** keystores.rs:125-132; [new_from_slices] fails unless key and initialization vector have 16 bytes, and that is unwrapped *)
Definition cipher_new_with_iv (secret key iv : bytes) : res Cipher :=
  let! _ := rassert ((lenN key =? 16) && (lenN iv =? 16)) in
  Ok (mkCipher iv (apply_keystream key iv secret)).
(** keystores.rs:157-162 *)
Definition checksum_new (secret salt : bytes) : bytes := k_hash K (salt ++ secret).
(** keystores.rs:173-178 and 199-207 *)
Definition keystore_new (kp : KeyPair) (passphrase : list N) (salt iv : bytes) : res Keystore :=
  let kdf := kdf_new passphrase salt in
  let! ek := encryption_key kdf in
  let! cipher := cipher_new_with_iv (kp_private kp) ek iv in
  let! cs := checksum_salt kdf in
  Ok (mkKeystore kdf (checksum_new (cipher_message cipher) cs) cipher (kp_public kp) (kp_path kp) 4).
End Keys.
