(** * Specification vocabulary for the helper properties *)
From Verif Require Import Base Types Ctx Env SpecCommon SpecShuffle.
From Coq Require Import Sorted.

(** ** Votes *)
(** two different votes for the same target epoch *)
Definition double_vote (a b : AttestationData) : Prop := a <> b /\ cp_epoch (ad_target a) = cp_epoch (ad_target b).
(** the source-target interval of [a] strictly contains the one of [b] *)
Definition surrounds (a b : AttestationData) : Prop :=
  cp_epoch (ad_source a) < cp_epoch (ad_source b) /\ cp_epoch (ad_target b) < cp_epoch (ad_target a).

(** ** Signatures *)
(** domain: 4 type bytes followed by the first 28 bytes of the fork data root *)
Definition is_domain (E : Env) (type_bytes version : bytes) (gvr : Root) (d : bytes) : Prop :=
  exists r, htr E (OForkData version gvr) = Some r /\ 28 <= lenN r /\ d = type_bytes ++ firstn 28 r.
(** fork version a state prescribes for messages of epoch [e] *)
Definition version_at (s : BeaconState) (e : N) : bytes :=
  if e <? fk_epoch (fork s) then fk_previous_version (fork s) else fk_current_version (fork s).
(** root of the signing data of an object *)
Definition is_signing_root (E : Env) (o : SszObj) (d : bytes) (root : Root) : Prop :=
  exists r, htr E o = Some r /\ htr E (OSigningData r d) = Some root.
(** [sig] is a valid signature of [pk] on object [o] in the given domain type at epoch [e] *)
Definition signed_by (E : Env) (s : BeaconState) (type_bytes : bytes) (e : N) (o : SszObj) (pk sig : bytes) : Prop :=
  exists d root, is_domain E type_bytes (version_at s e) (genesis_validators_root s) d
    /\ is_signing_root E o d root /\ bls_verify E pk root sig = true.

(** ** Proposer sampling *)
(** candidate of round [r] among the active indices [A] *)
Definition proposer_candidate (E : Env) (A : list N) (seed : bytes) (r : N) : option N :=
  nthN A (spec_shuffle (hash E) seed (lenN A) (SHUFFLE_ROUND_COUNT E) (r mod lenN A)).
(** random byte number [r] *)
Definition proposer_byte (E : Env) (seed : bytes) (r : N) : N :=
  nth (N.to_nat (r mod 32)) (hash E (seed ++ to_le 8 (r / 32))) 0.
Definition proposer_accepts (E : Env) (s : BeaconState) (seed : bytes) (i r : N) : Prop :=
  MAX_EFFECTIVE_BALANCE E * proposer_byte E seed r <= effective_balance_of s i * 255.
(** [i] is the candidate of the first accepting round, which is round [r] *)
Definition first_accepted (E : Env) (s : BeaconState) (A : list N) (seed : bytes) (r i : N) : Prop :=
  proposer_candidate E A seed r = Some i /\ proposer_accepts E s seed i r
  /\ forall r' i', r' < r -> proposer_candidate E A seed r' = Some i' -> ~ proposer_accepts E s seed i' r'.

(** effective balances as the protocol keeps them: at most 2^44 Gwei (= 17592 ETH) *)
Definition effective_bounded (s : BeaconState) : Prop :=
  forall v, In v (validators s) -> v_effective_balance v <= 2 ^ 44.

(** ** Exits *)
(** churn limit of the current epoch *)
Definition churn_limit (E : Env) (s : BeaconState) : N :=
  N.max (MIN_PER_EPOCH_CHURN_LIMIT E) (lenN (active_set s (epoch_of E s)) / CHURN_LIMIT_QUOTIENT E).
(** number of validators whose exit epoch is [e] *)
Definition exits_at (s : BeaconState) (e : N) : N := lenN (filter (fun v => v_exit_epoch v =? e) (validators s)).
(** earliest epoch an exit or activation requested now can take effect *)
Definition earliest_exit (E : Env) (s : BeaconState) : N := epoch_of E s + 1 + MAX_SEED_LOOKAHEAD E.
(** scheduled exit epochs lie below [B] *)
Definition exits_below (s : BeaconState) (B : N) : Prop :=
  forall v, In v (validators s) -> v_exit_epoch v <> FAR_FUTURE_EPOCH -> v_exit_epoch v < B.
