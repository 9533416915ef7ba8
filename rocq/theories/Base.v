(** * Base: outcomes, machine arithmetic, indexed lists, bytes

    Nothing in this file models a particular function of the repository; it fixes how the Rust
    language features used by the repository are represented.  Later files cite the Rust lines. *)
From Coq Require Export List NArith ZArith Lia Bool.
From Coq Require Export ZifyBool ZifyNat ZifyN.
Export ListNotations.
Global Open Scope N_scope.
Global Open Scope bool_scope.
Ltac Zify.zify_post_hook ::= Z.div_mod_to_equations.

Arguments N.add : simpl never.
Arguments N.sub : simpl never.
Arguments N.mul : simpl never.
Arguments N.div : simpl never.
Arguments N.modulo : simpl never.
Arguments N.pow : simpl never.
Arguments N.eqb : simpl never.
Arguments N.ltb : simpl never.
Arguments N.leb : simpl never.
Arguments N.max : simpl never.
Arguments N.min : simpl never.
Arguments N.of_nat : simpl never.
Arguments N.to_nat : simpl never.

(** ** Errors: the variants of [Error] and of the nested [InvalidBlock]/[InvalidOperation] enums
    (ethereum-consensus/src/error.rs:14-272).  Simplification: the payloads carried for display are
    dropped, except where a payload is a small number. *)
Inductive error : Type :=
| EMerkleization | ESimpleSerialize | EBls | EKzg
| EOutOfBounds | ECollectionCannotBeEmpty | EInvalidShufflingIndex | ESlotOutOfRange
| EOverflow | EUnderflow
| ETransitionToPreviousSlot | EInvalidStateRoot | EInvalidEpoch | EInvalidForkTransition
| EUnknownGenesisTime | EUnknownPreset | EExecutionEngine
(* InvalidBeaconBlockHeader *)
| EHdrStateSlotMismatch | EHdrParentBlockRootMismatch | EHdrProposerSlashed
| EHdrOlderThanLatestBlockHeader | EHdrProposerIndexMismatch
(* InvalidAttestation *)
| EAttBitfield | EAttInvalidTargetEpoch | EAttInvalidSlot | EAttNotTimely | EAttInvalidIndex
| EAttInvalidSource | EAttNoDelay
(* InvalidIndexedAttestation *)
| EIdxAttestingIndicesEmpty | EIdxDuplicateIndices | EIdxAttestingIndicesNotSorted | EIdxInvalidIndex
(* InvalidDeposit *)
| EDepIncorrectCount | EDepInvalidProof | EDepInvalidSignature
| ERandao
(* InvalidProposerSlashing *)
| EPSlotMismatch | EPProposerMismatch | EPHeadersAreEqual | EPProposerIsNotSlashable
| EPInvalidSignature | EPInvalidIndex
(* InvalidAttesterSlashing *)
| EASNotSlashable | EASNoSlashings
(* InvalidVoluntaryExit *)
| EVEInvalidIndex | EVEInactiveValidator | EVEValidatorAlreadyExited | EVEEarlyExit
| EVEValidatorIsNotActiveForLongEnough | EVEInvalidSignature | EVENonZeroPendingBalanceToWithdraw
(* InvalidSyncAggregate, InvalidExecutionPayload, InvalidWithdrawals, InvalidBlsToExecutionChange *)
| ESyncInvalidSignature
| EPayInvalidParentHash | EPayInvalidPrevRandao | EPayInvalidTimestamp | EPayInvalidBlobCommitments
| EWithdrawalsIncorrect
| EBlsChangeIndexOutOfBounds | EBlsChangePrefix | EBlsChangePublicKeyMismatch
(* InvalidConsolidation *)
| ECInvalidIndex | ECQueueFull | ECInsufficientChurn | ECEqualIndices | ECInactiveValidator
| ECExitInitiated | ECEarlyConsolidation | ECMissingCredentials | ECCredentialsMismatch
(* bin/ec/blobs/mod.rs:19-34 *)
| EInvalidFieldElement | EExpectedHeaderForSizedFraming | EUnsupportedSizedFramingVersion
| EInvalidPayloadSize
| EHex | EParse.

(** ** Outcomes of running Rust code.  [Panic] is an explicit value ([unwrap]/[expect]/[assert!]/slice
    indexing/arithmetic panics); [Diverge] is "a loop did not stop within the given fuel". *)
Inductive res (A : Type) : Type :=
| Ok (a : A)
| Err (e : error)
| Panic
| Diverge.
Arguments Ok {A} a.
Arguments Err {A} e.
Arguments Panic {A}.
Arguments Diverge {A}.

Definition rbind {A B} (m : res A) (f : A -> res B) : res B :=
  match m with
  | Ok a => f a
  | Err e => Err e
  | Panic => Panic
  | Diverge => Diverge
  end.

Notation "'let!' x := m 'in' k" := (rbind m (fun x => k))
  (at level 200, x pattern, m at level 100, k at level 200, right associativity).

(** [ok_or]: [Option::ok_or(e)?]; [expect]: [Option::expect/unwrap]. *)
Definition ok_or {A} (o : option A) (e : error) : res A :=
  match o with Some a => Ok a | None => Err e end.
Definition expect {A} (o : option A) : res A :=
  match o with Some a => Ok a | None => Panic end.
(** [if !c { return Err(e) }] *)
Definition require (c : bool) (e : error) : res unit := if c then Ok tt else Err e.
(** [assert!(c)] *)
Definition rassert (c : bool) : res unit := if c then Ok tt else Panic.

Definition is_Ok {A} (m : res A) : bool := match m with Ok _ => true | _ => false end.
Definition is_Err {A} (m : res A) : bool := match m with Err _ => true | _ => false end.

(** ** Functions taking [&mut S]: the final state is returned also on error. *)
Definition St (S A : Type) : Type := S -> res A * S.
Definition sret {S A} (a : A) : St S A := fun s => (Ok a, s).
Definition sbind {S A B} (m : St S A) (f : A -> St S B) : St S B :=
  fun s => match m s with
           | (Ok a, s') => f a s'
           | (Err e, s') => (Err e, s')
           | (Panic, s') => (Panic, s')
           | (Diverge, s') => (Diverge, s')
           end.
(** read-only computation on the current state *)
Definition rd {S A} (f : S -> res A) : St S A := fun s => (f s, s).
(** state-independent computation *)
Definition lift {S A} (r : res A) : St S A := fun s => (r, s).
(** pure assignment *)
Definition md {S} (f : S -> S) : St S unit := fun s => (Ok tt, f s).

Notation "'let*' x := m 'in' k" := (sbind m (fun x => k))
  (at level 200, x pattern, m at level 100, k at level 200, right associativity).
Notation "m ;; k" := (sbind m (fun _ => k)) (at level 199, right associativity).

Definition swhen {S} (c : bool) (m : St S unit) : St S unit := if c then m else sret tt.

(** [for x in l { body }] with early return through [?] *)
Fixpoint sfor {S A} (l : list A) (body : A -> St S unit) : St S unit :=
  match l with
  | [] => sret tt
  | x :: t => sbind (body x) (fun _ => sfor t body)
  end.

Fixpoint rfold {A B} (f : B -> A -> res B) (l : list A) (b : B) : res B :=
  match l with
  | [] => Ok b
  | x :: t => rbind (f b x) (fun b' => rfold f t b')
  end.

Fixpoint rmap {A B} (f : A -> res B) (l : list A) : res (list B) :=
  match l with
  | [] => Ok []
  | x :: t => let! y := f x in let! ys := rmap f t in Ok (y :: ys)
  end.

(** ** 64-bit machine arithmetic.  [chk] is the build flag: [true] = debug build (overflow panics),
    [false] = release build (wrap-around). *)
Definition U64 : N := 2 ^ 64.
Definition U64_MAX : N := 2 ^ 64 - 1.

Definition uadd (chk : bool) (x y : N) : res N :=
  if x + y <? U64 then Ok (x + y) else if chk then Panic else Ok ((x + y) mod U64).
Definition usub (chk : bool) (x y : N) : res N :=
  if y <=? x then Ok (x - y) else if chk then Panic else Ok ((x + U64) - y).
Definition umul (chk : bool) (x y : N) : res N :=
  if x * y <? U64 then Ok (x * y) else if chk then Panic else Ok ((x * y) mod U64).
(** division and remainder by zero panic in every build *)
Definition udiv (x y : N) : res N := if y =? 0 then Panic else Ok (x / y).
Definition umod (x y : N) : res N := if y =? 0 then Panic else Ok (x mod y).
(** [checked_add(..).ok_or(Overflow)], [checked_sub(..).ok_or(Underflow)], [checked_mul] *)
Definition cadd (x y : N) : option N := if x + y <? U64 then Some (x + y) else None.
Definition csub (x y : N) : option N := if y <=? x then Some (x - y) else None.
Definition cmul (x y : N) : option N := if x * y <? U64 then Some (x * y) else None.
Definition ssub (x y : N) : N := x - y. (* saturating_sub *)
Definition sadd (x y : N) : N := N.min (x + y) U64_MAX. (* saturating_add *)

(** ** Lists indexed by [N] (structural on the list, so that large indices compute) *)
Definition lenN {A} (l : list A) : N := N.of_nat (length l).

Fixpoint nthN {A} (l : list A) (i : N) : option A :=
  match l with
  | [] => None
  | x :: t => if i =? 0 then Some x else nthN t (i - 1)
  end.

Fixpoint updN {A} (l : list A) (i : N) (a : A) : list A :=
  match l with
  | [] => []
  | x :: t => if i =? 0 then a :: t else x :: updN t (i - 1) a
  end.

(** [v[i]]: panics out of bounds *)
Definition idx {A} (l : list A) (i : N) : res A := expect (nthN l i).
(** [v.get(i).ok_or(e)?] *)
Definition getN {A} (l : list A) (i : N) (e : error) : res A := ok_or (nthN l i) e.

Fixpoint seqN (start : N) (len : nat) : list N :=
  match len with
  | O => []
  | S k => start :: seqN (start + 1) k
  end.
(** [0..n] *)
Definition rangeN (n : N) : list N := seqN 0 (N.to_nat n).

Definition firstN {A} (n : N) (l : list A) : list A := firstn (N.to_nat n) l.
Definition skipN {A} (n : N) (l : list A) : list A := skipn (N.to_nat n) l.
Definition repeatN {A} (a : A) (n : N) : list A := repeat a (N.to_nat n).
Definition sumN (l : list N) : N := fold_right N.add 0 l.

(** ** Bytes *)
Definition byte := N.
Definition bytes := list N.
Definition Root := bytes.
Definition bytes_eqb (a b : bytes) : bool := if list_eq_dec N.eq_dec a b then true else false.

(** little-endian encoding on [n] bytes: [u64::to_le_bytes] etc. *)
Fixpoint to_le (n : nat) (x : N) : bytes :=
  match n with
  | O => []
  | S k => (x mod 256) :: to_le k (x / 256)
  end.
Fixpoint of_le (l : bytes) : N :=
  match l with
  | [] => 0
  | b :: t => b + 256 * of_le t
  end.
Definition to_be (n : nat) (x : N) : bytes := rev (to_le n x).
Definition of_be (l : bytes) : N := of_le (rev l).

Definition xorB (a b : bytes) : bytes := map (fun p => N.lxor (fst p) (snd p)) (combine a b).

Definition zero32 : bytes := repeat 0 32.

(** stable insertion sort and deduplication used to model [sort]/[sort_unstable] on indices and
    [HashSet]-based deduplication (order made canonical: ascending) *)
Fixpoint insert_sorted (x : N) (l : list N) : list N :=
  match l with
  | [] => [x]
  | y :: t => if x <=? y then x :: l else y :: insert_sorted x t
  end.
Fixpoint isort (l : list N) : list N :=
  match l with
  | [] => []
  | x :: t => insert_sorted x (isort t)
  end.

Definition memN (x : N) (l : list N) : bool := existsb (N.eqb x) l.
Fixpoint dedupN (l : list N) : list N :=
  match l with
  | [] => []
  | x :: t => if memN x t then dedupN t else x :: dedupN t
  end.
