(** * What blst is assumed to be, and signatures in plain terms *)
From Verif Require Import Base Types Ctx Env Signing SpecOps.

(** the groups, the pairing and the encodings of BLS12-381 as the textbook has them *)
Record blst_laws (B : Blst) : Prop := {
  l_g1_comm : forall a b, g1_add B a b = g1_add B b a;
  l_g1_assoc : forall a b c, g1_add B a (g1_add B b c) = g1_add B (g1_add B a b) c;
  l_g1_inf : forall a, g1_add B a (g1_inf B) = a;
  l_g2_comm : forall a b, g2_add B a b = g2_add B b a;
  l_g2_assoc : forall a b c, g2_add B a (g2_add B b c) = g2_add B (g2_add B a b) c;
  l_g2_inf : forall a, g2_add B a (g2_inf B) = a;
  l_gt_comm : forall a b, gt_mul B a b = gt_mul B b a;
  l_gt_assoc : forall a b c, gt_mul B a (gt_mul B b c) = gt_mul B (gt_mul B a b) c;
  l_gt_one : forall a, gt_mul B a (gt_one B) = a;
  l_gt_eqb : forall a b, gt_eqb B a b = true <-> a = b;
  l_g1_is_inf : forall a, g1_is_inf B a = true <-> a = g1_inf B;
  (* the groups of prime order *)
  l_in1_gen : g1_in B (g1_gen B) = true;
  l_in1_inf : g1_in B (g1_inf B) = true;
  l_in1_add : forall a b, g1_in B a = true -> g1_in B b = true -> g1_in B (g1_add B a b) = true;
  l_in2_inf : g2_in B (g2_inf B) = true;
  l_in2_add : forall a b, g2_in B a = true -> g2_in B b = true -> g2_in B (g2_add B a b) = true;
  l_in2_hash : forall m, g2_in B (hash_g2 B m) = true;
  l_order : 1 < order B;
  l_gen_order : forall k, g1_times B k (g1_gen B) = g1_inf B <-> k mod order B = 0;
  l_g2_cancel : forall k a b, 0 < k < order B -> g2_in B a = true -> g2_in B b = true -> g2_times B k a = g2_times B k b -> a = b;
  (* the pairing is bilinear and does not lose points of the second group *)
  l_pair_left : forall a b h, pair_ B (g1_add B a b) h = gt_mul B (pair_ B a h) (pair_ B b h);
  l_pair_right : forall a h k, pair_ B a (g2_add B h k) = gt_mul B (pair_ B a h) (pair_ B a k);
  l_pair_inf1 : forall h, pair_ B (g1_inf B) h = gt_one B;
  l_pair_inf2 : forall a, pair_ B a (g2_inf B) = gt_one B;
  l_pair_inj : forall s t, g2_in B s = true -> g2_in B t = true -> pair_ B (g1_gen B) s = pair_ B (g1_gen B) t -> s = t;
  (* the compressed encodings *)
  l_enc1 : forall p, g1_decode B (g1_encode B p) = Some p;
  l_enc2 : forall p, g2_decode B (g2_encode B p) = Some p;
  l_dec2 : forall b p, g2_decode B b = Some p -> g2_encode B p = b;
  l_len1 : forall p, lenN (g1_encode B p) = 48;
  l_len2 : forall p, lenN (g2_encode B p) = 96
}.

(** the abstract checks the state transition uses are these functions *)
Definition oracles_are (B : Blst) (E : Env) : Prop :=
  (forall pk m s, bls_verify E pk m s = is_ok (verify_signature B pk m s)) /\
  (forall pks m s, fast_aggregate_verify_ok E pks m s = is_ok (fast_aggregate_verify B pks m s)) /\
  (forall pks, pks <> [] -> aggregate_pks E pks = match eth_aggregate_public_keys B pks with Ok p => Some p | _ => None end).

(** [key k pk]: [k] is a secret key, [pk] its public key *)
Definition key (B : Blst) (k : N) (pk : bytes) : Prop := secret_ok B k = true /\ public_key B k = Ok pk.
