(** * Text: textual encodings (ethereum-consensus/src/serde.rs, networks.rs; beacon-api-client/src/types.rs)

    A text is the list of its character codes.  Simplification: only the characters that occur are ASCII; any other character is an
    arbitrary number, which is all the decoders look at ([hex::decode] works on the bytes of the UTF-8 encoding: every byte of a
    non-ASCII character is at least 128 and is treated the same way). *)
From Coq Require Import Ascii String.
From Verif Require Export Base Ctx.

Definition text : Type := list N.
(** a string literal *)
Definition txt (s : string) : text := map N_of_ascii (list_ascii_of_string s).

Fixpoint text_eqb (a b : text) : bool :=
  match a, b with
  | [], [] => true
  | x :: a', y :: b' => (x =? y) && text_eqb a' b'
  | _, _ => false
  end.

(** ** Hexadecimal *)

(** [{i:02x}] of one byte, and hex::encode (external crate [hex], lower case) *)
Definition hex_digit (v : N) : N := if v <? 10 then 48 + v else 87 + v.
Definition hex_byte (b : N) : text := [hex_digit (b / 16); hex_digit (b mod 16)].
(** serde.rs:7-12; also [hex::encode] *)
Definition hex_text (b : bytes) : text := flat_map hex_byte b.
(** serde.rs:14-20 [write_bytes_to_lower_hex], serde.rs:49-56 [as_hex::serialize] *)
Definition to_hex (b : bytes) : text := txt "0x" ++ hex_text b.
(** serde.rs:22-36 [write_bytes_to_lower_hex_display]; 8230 is the character "…" *)
Definition hex_display (b : bytes) : text :=
  if 4 <=? lenN b then txt "0x" ++ hex_text (firstN 2 b) ++ [8230] ++ hex_text (skipN (lenN b - 2) b)
  else txt "0x" ++ hex_text b.

(** hex crate: value of one digit, either case *)
Definition hex_value (c : N) : option N :=
  if (48 <=? c) && (c <=? 57) then Some (c - 48)
  else if (97 <=? c) && (c <=? 102) then Some (c - 87)
  else if (65 <=? c) && (c <=? 70) then Some (c - 55)
  else None.
(** hex crate, [FromHex for Vec<u8>]: odd length is refused first *)
Fixpoint hex_pairs (t : text) : res bytes :=
  match t with
  | [] => Ok []
  | [_] => Err EHex
  | a :: b :: rest =>
    let! x := ok_or (hex_value a) EHex in
    let! y := ok_or (hex_value b) EHex in
    let! r := hex_pairs rest in
    Ok (16 * x + y :: r)
  end.
Definition hex_decode (t : text) : res bytes := if N.odd (lenN t) then Err EHex else hex_pairs t.
(** [str::strip_prefix("0x").unwrap_or(s)] *)
Definition strip_0x (t : text) : text :=
  match t with
  | a :: b :: rest => if (a =? 48) && (b =? 120) then rest else t
  | _ => t
  end.
(** serde.rs:38-42 *)
Definition try_bytes_from_hex_str (t : text) : res bytes := hex_decode (strip_0x t).
(** serde.rs:58-69 [as_hex::deserialize] for [ByteVector<N>] (ssz/byte_vector.rs:24-30) and [ByteList<N>] (ssz/byte_list.rs:14-20):
    the SSZ decoding of a byte vector or list checks the length *)
Definition byte_vector_from_hex (n : N) (t : text) : res bytes :=
  let! b := try_bytes_from_hex_str t in if lenN b =? n then Ok b else Err ESimpleSerialize.
Definition byte_list_from_hex (n : N) (t : text) : res bytes :=
  let! b := try_bytes_from_hex_str t in if lenN b <=? n then Ok b else Err ESimpleSerialize.

(** ** Decimal integers: [Display] and [FromStr] of [u64] (serde.rs:72-92 [as_str]) *)
Fixpoint dec_text (fuel : nat) (n : N) : text :=
  match fuel with
  | O => []
  | S k => if n <? 10 then [48 + n] else dec_text k (n / 10) ++ [48 + n mod 10]
  end.
(** a [u64] has at most 20 digits *)
Definition u64_text (n : N) : text := dec_text 20 n.
Fixpoint dec_parse (t : text) (acc : N) : res N :=
  match t with
  | [] => Ok acc
  | c :: rest =>
    if (48 <=? c) && (c <=? 57) then
      let! m := ok_or (cmul acc 10) EParse in
      let! a := ok_or (cadd m (c - 48)) EParse in
      dec_parse rest a
    else Err EParse
  end.
(** core::num: an optional leading [+], then at least one digit *)
Definition u64_parse (t : text) : res N :=
  match t with
  | [] => Err EParse
  | 43 :: [] => Err EParse
  | 43 :: rest => dec_parse rest 0
  | _ => dec_parse t 0
  end.

(** ** Identifiers *)

(** beacon-api-client/src/types.rs:59-66 *)
Inductive StateId : Type := SHead | SGenesis | SFinalized | SJustified | SSlot (s : N) | SRoot (r : bytes).
(** 68-80; [{root:?}] of a 32-byte [Node] (crate ssz_rs) is its 0x-prefixed lower-case hex text *)
Definition state_id_text (i : StateId) : text :=
  match i with
  | SFinalized => txt "finalized"
  | SJustified => txt "justified"
  | SHead => txt "head"
  | SGenesis => txt "genesis"
  | SSlot s => u64_text s
  | SRoot r => to_hex r
  end.
(** 82-106 *)
Definition state_id_parse (t : text) : res StateId :=
  if text_eqb t (txt "finalized") then Ok SFinalized
  else if text_eqb t (txt "justified") then Ok SJustified
  else if text_eqb t (txt "head") then Ok SHead
  else if text_eqb t (txt "genesis") then Ok SGenesis
  else match u64_parse t with
       | Ok s => Ok (SSlot s)
       | _ => let! b := try_bytes_from_hex_str t in
              if lenN b =? 32 then Ok (SRoot b) else Err ESimpleSerialize
       end.
(** 114-133 *)
Inductive BlockId : Type := BHead | BGenesis | BFinalized | BSlot (s : N) | BRoot (r : bytes).
Definition block_id_text (i : BlockId) : text :=
  match i with
  | BFinalized => txt "finalized"
  | BHead => txt "head"
  | BGenesis => txt "genesis"
  | BSlot s => u64_text s
  | BRoot r => to_hex r
  end.

(** ** Networks: ethereum-consensus/src/networks.rs:12-52 *)
Inductive Network : Type := Mainnet | Sepolia | Goerli | Holesky | Hoodi | Custom (dir : text).
(** 22-39 *)
Definition network_text (n : Network) : text :=
  match n with
  | Mainnet => txt "mainnet"
  | Sepolia => txt "sepolia"
  | Goerli => txt "goerli"
  | Holesky => txt "holesky"
  | Hoodi => txt "hoodi"
  | Custom dir => txt "custom (" ++ dir ++ txt "/config.yaml)"
  end.
(** 41-52 *)
Definition network_of_text (t : text) : Network :=
  if text_eqb t (txt "mainnet") then Mainnet
  else if text_eqb t (txt "sepolia") then Sepolia
  else if text_eqb t (txt "goerli") then Goerli
  else if text_eqb t (txt "holesky") then Holesky
  else if text_eqb t (txt "hoodi") then Hoodi
  else Custom t.
(** state_transition/context.rs:472-480, clock.rs:12-15 *)
Definition network_genesis_time (n : Network) : res N :=
  match n with
  | Mainnet => Ok 1606824023
  | Sepolia => Ok 1655733600
  | Goerli => Ok 1616508000
  | Holesky => Ok 1695902400
  | _ => Err EUnknownGenesisTime
  end.
(** networks.rs:74-76 *)
Definition typical_genesis_time (E : Ctx) (chk : bool) : res N := uadd chk (MIN_GENESIS_TIME E) (GENESIS_DELAY E).
