(** * Peer identifiers: ethereum-consensus/src/networking.rs

    The crates bs58 0.4, multihash 0.16 and unsigned-varint are not part of /repo.  What networking.rs uses of them is modelled here from their published
    algorithms.  A text is the list of its UTF-8 bytes.  Errors are not told apart. *)
From Verif Require Import Base.
From Coq Require Import Ascii String.

(** ** bs58, as called in networking.rs:25 and 110 *)
(** the bitcoin alphabet, bs58's default *)
Definition alphabet : bytes :=
  map N_of_ascii (list_ascii_of_string "123456789ABCDEFGHJKLMNPQRSTUVWXYZabcdefghijkmnopqrstuvwxyz").
(** the inner loops of [encode_into] and [decode_into]: multiply the number in [ds] (digits in base [B], least significant first) by [M] and add [c].
    Shifts and masks of the code are divisions here. *)
Fixpoint spill (fuel : nat) (B c : N) : list N :=
  match fuel with
  | O => []
  | S k => if c =? 0 then [] else c mod B :: spill k B (c / B)
  end.
Fixpoint push (M B : N) (ds : list N) (c : N) : list N :=
  match ds with
  | [] => spill (N.size_nat c) B c
  | d :: ds' => let c' := c + d * M in c' mod B :: push M B ds' (c' / B)
  end.
Definition conv (M B : N) (input : list N) : list N := fold_left (push M B) input [].
Fixpoint leading_zeros (l : list N) : nat :=
  match l with
  | x :: t => if x =? 0 then S (leading_zeros t) else O
  | [] => O
  end.
(** networking.rs:25 [bs58::encode(..).into_string()] *)
Definition b58_encode (b : bytes) : bytes :=
  map (fun d => nth (N.to_nat d) alphabet 0) (rev (conv 256 58 b ++ repeat 0 (leading_zeros b))).
Fixpoint position (x : N) (l : list N) : option N :=
  match l with
  | [] => None
  | y :: t => if x =? y then Some 0 else option_map N.succ (position x t)
  end.
Fixpoint digits_of (s : bytes) : option (list N) :=
  match s with
  | [] => Some []
  | c :: t => match position c alphabet, digits_of t with Some d, Some ds => Some (d :: ds) | _, _ => None end
  end.
(** networking.rs:110 [bs58::decode(s).into_vec()] *)
Definition b58_decode (s : bytes) : option bytes :=
  match digits_of s with
  | Some ds => Some (rev (conv 58 256 ds ++ repeat 0 (leading_zeros ds)))
  | None => None
  end.

(** ** multihash, as called in networking.rs:25, 29 and 33 *)
(** the size of a digest is a [u8] and at most 64; the bytes beyond it in the fixed array are zero and not represented *)
Record PeerId : Type := mkPeer { p_code : N; p_digest : bytes }.
Fixpoint write_varint (fuel : nat) (n : N) : bytes :=
  match fuel with
  | O => []
  | S k => if n <? 128 then [n] else (128 + n mod 128) :: write_varint k (n / 128)
  end.
(** at most ten bytes; bits shifted out of the u64 are lost; the last byte of several must not be 0 *)
Fixpoint read_varint (fuel : nat) (shift acc : N) (b : bytes) : option (N * bytes) :=
  match fuel, b with
  | S k, x :: t =>
    let n := (acc + (x mod 128) * 2 ^ shift) mod U64 in
    if x <? 128 then (if (x =? 0) && (0 <? shift) then None else Some (n, t)) else read_varint k (shift + 7) n t
  | _, _ => None
  end.
(** networking.rs:28-30 *)
Definition to_bytes (p : PeerId) : bytes := write_varint 10 (p_code p) ++ write_varint 10 (lenN (p_digest p)) ++ p_digest p.
Definition multihash_from_bytes (b : bytes) : option PeerId :=
  match read_varint 10 0 0 b with
  | Some (code, r) =>
    match read_varint 10 0 0 r with
    | Some (size, d) => if (64 <? size) || negb (lenN d =? size) then None else Some (mkPeer code d)
    | None => None
    end
  | None => None
  end.
(** networking.rs:8 *)
Definition MAX_INLINE_KEY_LENGTH : N := 42.
Definition SHA2_256 : N := 18.
Definition IDENTITY : N := 0.
(** networking.rs:37-45 *)
Definition from_multihash (p : PeerId) : option PeerId :=
  if p_code p =? SHA2_256 then Some p
  else if (p_code p =? IDENTITY) && (lenN (p_digest p) <=? MAX_INLINE_KEY_LENGTH) then Some p else None.
(** networking.rs:32-35 *)
Definition from_bytes (b : bytes) : option PeerId :=
  match multihash_from_bytes b with Some p => from_multihash p | None => None end.
(** networking.rs:18-26 *)
Definition to_text (p : PeerId) : bytes := b58_encode (to_bytes p).
(** networking.rs:105-113 *)
Definition from_text (s : bytes) : option PeerId :=
  match b58_decode s with Some b => from_bytes b | None => None end.
