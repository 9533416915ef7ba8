(** * Specification: EIP-2333 key derivation, EIP-2334 paths and EIP-2335 keystores

    Written from the EIPs over the external functions; no function of Keys.v is used. *)
From Verif Require Import Base Keys.

Section Spec.
Variable K : KeyOracles.
(** the order of the BLS12-381 groups: x^4 - x^2 + 1 for the curve parameter x = -0xd201000000010000 *)
Definition curve_x : N := 15132376222941642752.
Definition group_order : N := curve_x ^ 4 - curve_x ^ 2 + 1.

(** ** EIP-2333 *)
(** hkdf_mod_r: attempt [n] (from 0) uses the salt hashed [n + 1] times *)
Definition attempt (ikm : bytes) (n : nat) : N :=
  let salt := Nat.iter (S n) (k_hash K) [66; 76; 83; 45; 83; 73; 71; 45; 75; 69; 89; 71; 69; 78; 45; 83; 65; 76; 84; 45] in
  of_be (k_hkdf K salt (ikm ++ [0]) [0; 48] 48) mod group_order.
(** the key is the first attempt that is not zero *)
Definition is_key (ikm : bytes) (k : N) : Prop := exists n, attempt ikm n = k /\ k <> 0 /\ forall m, (m < n)%nat -> attempt ikm m = 0.
(** lamport key: 255 pieces of 32 bytes, each hashed *)
Definition piece (okm : bytes) (i : N) : bytes := firstN 32 (skipN (32 * i) okm).
Definition lamport_half (ikm salt : bytes) : bytes :=
  let okm := k_hkdf K salt ikm [] 8160 in concat (map (fun i => k_hash K (piece okm i)) (rangeN 255)).
Definition lamport_public (parent index : N) : bytes :=
  let ikm := to_be 32 parent in
  k_hash K (lamport_half ikm (to_be 4 index) ++ lamport_half (map (fun b => N.lxor b 255) ikm) (to_be 4 index)).
Inductive at_path (seed : bytes) : list N -> N -> Prop :=
| path_master k : is_key seed k -> at_path seed [] k
| path_child p parent i k : at_path seed p parent -> is_key (lamport_public parent i) k -> at_path seed (p ++ [i]) k.
(** ** EIP-2334: the key pair of a path *)
Definition pair_at (seed : bytes) (path : list N) (kp : KeyPair) : Prop :=
  kp_path kp = path /\ kp_public kp = k_public K (kp_private kp) /\ lenN (kp_private kp) = 32 /\ Forall (fun b => b < 256) (kp_private kp)
  /\ at_path seed path (of_be (kp_private kp)) /\ 0 < of_be (kp_private kp) < group_order.

(** ** EIP-2335: decryption with AES-128-CTR; the counter block is a 128-bit number *)
Definition counter_block (iv : bytes) (i : N) : bytes := to_be 16 ((of_be iv + i) mod 2 ^ 128).
Definition aes_128_ctr (key iv message : bytes) : bytes :=
  xorB message (k_aes K key (counter_block iv 0) ++ k_aes K key (counter_block iv 1)).
(** C0, C1 and delete control codes are removed from the normalized password *)
Definition password_bytes (password : list N) : bytes :=
  k_utf8 K (filter (fun c => negb ((c <=? 31) || (c =? 127) || ((128 <=? c) && (c <=? 159)))) (k_nfkd K password)).
(** the secret, if the checksum matches *)
Definition decrypt (ks : Keystore) (password : list N) : option bytes :=
  let dk := k_scrypt K (password_bytes password) (kdf_salt (ks_kdf ks)) in
  if bytes_eqb (k_hash K (firstN 16 (skipN 16 dk) ++ cipher_message (ks_cipher ks))) (ks_checksum ks)
  then Some (aes_128_ctr (firstN 16 dk) (cipher_iv (ks_cipher ks)) (cipher_message (ks_cipher ks))) else None.
End Spec.
