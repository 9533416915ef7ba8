(** * JSON decoding of the fork-generic containers: ethereum-consensus/src/types

    [BeaconState], [BeaconBlock], [ExecutionPayload], ... of types/*.rs are enums over the forks. They are written untagged ([#[serde(untagged)]]): the text
    is that of the container inside. Reading tries the forks from the newest to the oldest and keeps the first that succeeds.
    The decoder of a container is derived by serde: an object must have every field, unknown fields are ignored; an array must have exactly the fields in
    order. The decoders of the types of the fields, other than the containers spelled out here, are a parameter [leaf], looked up by field name: a field
    has the same type in every fork, except the attestations and attester slashings of electra, which have names of their own. *)
From Coq Require Import String.
From Verif Require Import Base Types Trees.
Local Open Scope string_scope.

(** serde_json [Value]; numbers and texts are opaque *)
Inductive json : Type := JNull | JBool (b : bool) | JNum (n : N) | JStr (t : string) | JArr (l : list json) | JObj (kvs : list (string * json)).
(** what the derived decoder of a type looks for *)
Inductive schema : Type := STy (name : string) | SRec (fields : list (string * schema)).

Fixpoint lookup (name : string) (kvs : list (string * json)) : option json :=
  match kvs with
  | [] => None
  | (k, x) :: t => if String.eqb k name then Some x else lookup name t
  end.

Section Leaf.
Variable leaf : string -> json -> bool.
(** derived [Deserialize]: does the value decode? *)
Fixpoint decodes (s : schema) (v : json) {struct s} : bool :=
  match s with
  | STy ty => leaf ty v
  | SRec fields =>
      match v with
      | JObj kvs => forallb (fun p => match lookup (fst p) kvs with Some x => decodes (snd p) x | None => false end) fields
      | JArr l =>
          (fix go (fields : list (string * schema)) (l : list json) : bool :=
             match fields, l with
             | [], [] => true
             | p :: ft, x :: lt => decodes (snd p) x && go ft lt
             | _, _ => false
             end) fields l
      | _ => false
      end
  end.
End Leaf.

(** bellatrix/execution_payload.rs:13-56, capella 13-60, deneb 12-46, electra 13-52 *)
Definition payload_start : list string :=
  ["parent_hash"; "fee_recipient"; "state_root"; "receipts_root"; "logs_bloom"; "prev_randao"; "block_number"; "gas_limit"; "gas_used"; "timestamp";
   "extra_data"; "base_fee_per_gas"; "block_hash"].
Definition payload_fields (f : Fork) : list string :=
  (payload_start ++ match f with
   | Phase0 | Altair | Bellatrix => ["transactions"]
   | Capella => ["transactions"; "withdrawals"]
   | Deneb => ["transactions"; "withdrawals"; "blob_gas_used"; "excess_blob_gas"]
   | Electra => ["transactions"; "withdrawals"; "blob_gas_used"; "excess_blob_gas"; "deposit_receipts"; "withdrawal_requests"]
   end)%list.
(** bellatrix/execution_payload.rs:58-82, capella 62-88, deneb 48-78, electra 54-88 *)
Definition header_fields (f : Fork) : list string :=
  (payload_start ++ match f with
   | Phase0 | Altair | Bellatrix => ["transactions_root"]
   | Capella => ["transactions_root"; "withdrawals_root"]
   | Deneb => ["transactions_root"; "withdrawals_root"; "blob_gas_used"; "excess_blob_gas"]
   | Electra => ["transactions_root"; "withdrawals_root"; "blob_gas_used"; "excess_blob_gas"; "deposit_receipts_root"; "withdrawal_requests_root"]
   end)%list.
(** <fork>/blinded_beacon_block.rs: as the body, with the header in place of the payload; bellatrix 13-39, capella 14-42, deneb 16-46 *)
Definition blinded_body_fields (f : Fork) : list string :=
  map (fun n => if String.eqb n "execution_payload" then "execution_payload_header" else n) (body_fields f).

Definition leaf_name (f : Fork) (n : string) : string :=
  match f with
  | Electra => if String.eqb n "attestations" || String.eqb n "attester_slashings" then "electra_" ++ n else n
  | _ => n
  end.
Definition payload_schema (f : Fork) : schema := SRec (map (fun n => (n, STy n)) (payload_fields f)).
Definition header_schema (f : Fork) : schema := SRec (map (fun n => (n, STy n)) (header_fields f)).
Definition field_schema (f : Fork) (n : string) : schema :=
  if String.eqb n "execution_payload" then payload_schema f
  else if String.eqb n "execution_payload_header" || String.eqb n "latest_execution_payload_header" then header_schema f
  else STy (leaf_name f n).
Definition state_schema (f : Fork) : schema := SRec (map (fun n => (n, field_schema f n)) (state_fields f)).
Definition body_schema (f : Fork) : schema := SRec (map (fun n => (n, field_schema f n)) (body_fields f)).
Definition blinded_body_schema (f : Fork) : schema := SRec (map (fun n => (n, field_schema f n)) (blinded_body_fields f)).
(** phase0/beacon_block.rs:34-59 and its copies *)
Definition block_of (body : schema) : schema :=
  SRec [("slot", STy "slot"); ("proposer_index", STy "proposer_index"); ("parent_root", STy "parent_root"); ("state_root", STy "state_root"); ("body", body)].
(** phase0/beacon_block.rs:61-81 and its copies *)
Definition signed_of (block : schema) : schema := SRec [("message", block); ("signature", STy "signature")].

(** the fork-generic types *)
Inductive container_kind : Type := KState | KBody | KBlock | KSignedBlock | KPayload | KHeader | KBlindedBody | KBlindedBlock | KSignedBlindedBlock.
Definition schema_of (c : container_kind) (f : Fork) : schema :=
  match c with
  | KState => state_schema f
  | KBody => body_schema f
  | KBlock => block_of (body_schema f)
  | KSignedBlock => signed_of (block_of (body_schema f))
  | KPayload => payload_schema f
  | KHeader => header_schema f
  | KBlindedBody => blinded_body_schema f
  | KBlindedBlock => block_of (blinded_body_schema f)
  | KSignedBlindedBlock => signed_of (block_of (blinded_body_schema f))
  end.
(** types/beacon_state.rs:943-959, beacon_block_body.rs:655-671, beacon_block.rs:521-537, signed_beacon_block.rs:467-483: deneb to phase0;
    execution_payload.rs:428-438, execution_payload_header.rs:329-339, blinded_beacon_block_body.rs:458-468, blinded_beacon_block.rs:361-371,
    signed_blinded_beacon_block.rs:319-329: deneb to bellatrix *)
Definition variants (c : container_kind) : list Fork :=
  match c with
  | KState | KBody | KBlock | KSignedBlock => [Deneb; Capella; Bellatrix; Altair; Phase0]
  | _ => [Deneb; Capella; Bellatrix]
  end.
(** the variant read from a value; [None] for the error *)
Definition read_variant (leaf : string -> json -> bool) (c : container_kind) (v : json) : option Fork :=
  find (fun f => decodes leaf (schema_of c f) v) (variants c).
