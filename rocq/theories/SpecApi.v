(** * Specification of the beacon API, from the side of the node

    A node reads a request: it finds the endpoint by method and path, reads the parameters in the path and in the query, the fork in the
    version header and the body.  [serve base r] is the call the request asks for, [None] if the node has no such endpoint or cannot read a
    parameter.  The endpoints are those of the Ethereum beacon API; [base] is the path below which the node offers them. *)
From Coq Require Import Ascii String.
From Verif Require Import Base Types Text Json Api.
Local Open Scope string_scope.
Local Open Scope N_scope.
Local Open Scope list_scope.
Notation "'let?' x := e 'in' k" := (match e with Some x => k | None => None end) (at level 200, x pattern, e at level 100, k at level 200).

(** ** Reading texts *)
Definition is (s : string) (t : text) : bool := text_eqb t (map N_of_ascii (list_ascii_of_string s)).
Fixpoint digits_value (t : text) (acc : N) : option N :=
  match t with
  | [] => Some acc
  | c :: r => if (48 <=? c) && (c <=? 57) then digits_value r (10 * acc + (c - 48)) else None
  end.
Definition number (t : text) : option N :=
  match t with [] => None | _ => let? n := digits_value t 0 in if n <? 2 ^ 64 then Some n else None end.
Definition nibble (c : N) : option N :=
  if (48 <=? c) && (c <=? 57) then Some (c - 48) else if (97 <=? c) && (c <=? 102) then Some (c - 97 + 10) else if (65 <=? c) && (c <=? 70) then Some (c - 65 + 10) else None.
Fixpoint hex_bytes (t : text) : option bytes :=
  match t with
  | [] => Some []
  | a :: b :: r => let? x := nibble a in let? y := nibble b in let? z := hex_bytes r in Some (16 * x + y :: z)
  | _ => None
  end.
(** [n] bytes, written in hexadecimal after 0x *)
Definition hex_of (n : N) (t : text) : option bytes :=
  match t with
  | 48 :: 120 :: r => let? b := hex_bytes r in if lenN b =? n then Some b else None
  | _ => None
  end.
Definition a_state (t : text) : option StateId :=
  if is "head" t then Some SHead else if is "genesis" t then Some SGenesis else if is "finalized" t then Some SFinalized
  else if is "justified" t then Some SJustified
  else match number t with Some s => Some (SSlot s) | None => let? r := hex_of 32 t in Some (SRoot r) end.
Definition a_block (t : text) : option BlockId :=
  if is "head" t then Some BHead else if is "genesis" t then Some BGenesis else if is "finalized" t then Some BFinalized
  else match number t with Some s => Some (BSlot s) | None => let? r := hex_of 32 t in Some (BRoot r) end.
Definition a_validator (t : text) : option PublicKeyOrIndex :=
  match number t with Some i => Some (ByIndex i) | None => let? k := hex_of 48 t in Some (ByKey k) end.
Fixpoint one_of {A} (l : list (string * A)) (t : text) : option A :=
  match l with [] => None | (s, a) :: r => if is s t then Some a else one_of r t end.
Definition a_status : text -> option ValidatorStatus := one_of
  [("pending_initialized", PendingInitialized); ("pending_queued", PendingQueued); ("active_ongoing", ActiveOngoing); ("active_exiting", ActiveExiting);
   ("active_slashed", ActiveSlashed); ("exited_unslashed", ExitedUnslashed); ("exited_slashed", ExitedSlashed); ("withdrawal_possible", WithdrawalPossible);
   ("withdrawal_done", WithdrawalDone); ("active", Active); ("pending", Pending); ("exited", Exited); ("withdrawal", Withdrawn)].
Definition a_peer_state : text -> option PeerState := one_of
  [("disconnected", Disconnected); ("connecting", Connecting); ("connected", Connected); ("disconnecting", Disconnecting)].
Definition a_direction : text -> option Orientation := one_of [("inbound", Inbound); ("outbound", Outbound)].
Definition a_validation : text -> option BroadcastValidation := one_of
  [("gossip", Gossip); ("consensus", Consensus); ("consensus_and_equivocation", ConsensusAndEquivocation)].
Definition a_fork : text -> option Fork := one_of
  [("phase0", Phase0); ("altair", Altair); ("bellatrix", Bellatrix); ("capella", Capella); ("deneb", Deneb); ("electra", Electra)].
Definition a_text (t : text) : option text := match t with [] => None | _ => Some t end.
(** validator indices in a body: an array of decimal strings *)
Definition text_of (s : string) : text := map N_of_ascii (list_ascii_of_string s).
Fixpoint all_of {A B} (rd : A -> option B) (l : list A) : option (list B) :=
  match l with [] => Some [] | x :: r => let? y := rd x in let? z := all_of rd r in Some (y :: z) end.
Definition a_index_body (v : json) : option (list N) :=
  match v with JArr l => all_of (fun x => match x with JStr s => number (text_of s) | _ => None end) l | _ => None end.

(** ** Paths and queries *)
(** the parts between the separators *)
Fixpoint split (sep : N) (t : text) : list text :=
  match t with
  | [] => [[]]
  | c :: r => if c =? sep then [] :: split sep r else match split sep r with h :: l => (c :: h) :: l | [] => [[c]] end
  end.
Definition slash : N := 47.
Definition comma : N := 44.
(** the arguments of a path, which stand where the template has a star *)
Fixpoint arguments (template path : list text) : option (list text) :=
  match template, path with
  | [], [] => Some []
  | w :: t, x :: p => if is "*" w then let? l := arguments t p in Some (x :: l) else if text_eqb x w then arguments t p else None
  | _, _ => None
  end.
Definition Query : Type := list (text * text).
Fixpoint param (k : string) (q : Query) : option text :=
  match q with [] => None | (n, v) :: r => if is k n then Some v else param k r end.
Definition required {A} (k : string) (rd : text -> option A) (q : Query) : option A := let? t := param k q in rd t.
Definition optional {A} (k : string) (rd : text -> option A) (q : Query) : option (option A) :=
  match param k q with None => Some None | Some t => let? a := rd t in Some (Some a) end.
(** a list is given by its elements with commas between them; no parameter is the empty list *)
Definition listed {A} (k : string) (rd : text -> option A) (q : Query) : option (list A) :=
  match param k q with None => Some [] | Some t => all_of rd (split comma t) end.
Definition only (keys : list string) (q : Query) : bool := forallb (fun p => existsb (fun k => is k (fst p)) keys) q.

(** ** Endpoints *)
Inductive action : Type :=
| Get (keys : list string) (g : list text -> Query -> option Call)
| Post (g : list text -> json -> option Call)
| PostVersioned (keys : list string) (g : Fork -> Query -> json -> option Call).
(** endpoints with no argument, or with one argument in the path *)
Definition get0 (c : Call) : action := Get [] (fun _ _ => Some c).
Definition get1 {A} (rd : text -> option A) (c : A -> Call) : action := Get [] (fun l _ => match l with [x] => let? a := rd x in Some (c a) | _ => None end).
Definition get1q {A} (keys : list string) (rd : text -> option A) (c : A -> Query -> option Call) : action :=
  Get keys (fun l q => match l with [x] => let? a := rd x in c a q | _ => None end).
Definition post0 (c : json -> Call) : action := Post (fun _ b => Some (c b)).
Definition post_indices (c : N -> list N -> Call) : action :=
  Post (fun l b => match l with [x] => let? e := number x in let? i := a_index_body b in Some (c e i) | _ => None end).
Definition post_block (c : json -> Fork -> option BroadcastValidation -> Call) : action :=
  PostVersioned ["broadcast_validation"] (fun f q b => let? v := optional "broadcast_validation" a_validation q in Some (c b f v)).
Definition proposal (c : N -> bytes -> option bytes -> Call) : action :=
  get1q ["randao_reveal"; "graffiti"] number (fun s q =>
    let? r := required "randao_reveal" (hex_of 96) q in let? g := optional "graffiti" (hex_of 32) q in Some (c s r g)).

Definition endpoints : list (string * action) := [
  ("eth/v1/beacon/genesis", get0 GetGenesis);
  ("eth/v1/beacon/states/*/root", get1 a_state GetStateRoot);
  ("eth/v1/beacon/states/*/fork", get1 a_state GetFork);
  ("eth/v1/beacon/states/*/finality_checkpoints", get1 a_state GetFinalityCheckpoints);
  ("eth/v1/beacon/states/*/validators", get1q ["id"; "status"] a_state (fun i q =>
     let? ids := listed "id" a_validator q in let? sts := listed "status" a_status q in Some (GetValidators i ids sts)));
  ("eth/v1/beacon/states/*/validators/*", Get [] (fun l _ => match l with
     | [x; y] => let? i := a_state x in let? v := a_validator y in Some (GetValidator i v) | _ => None end));
  ("eth/v1/beacon/states/*/validator_balances", get1q ["id"] a_state (fun i q => let? ids := listed "id" a_validator q in Some (GetBalances i ids)));
  ("eth/v1/beacon/states/*/committees", get1q ["epoch"; "index"; "slot"] a_state (fun i q =>
     let? e := optional "epoch" number q in let? x := optional "index" number q in let? s := optional "slot" number q in Some (GetCommittees i e x s)));
  ("eth/v1/beacon/states/*/sync_committees", get1q ["epoch"] a_state (fun i q => let? e := optional "epoch" number q in Some (GetSyncCommittees i e)));
  ("eth/v1/beacon/states/*/randao", get1q ["epoch"] a_state (fun i q => let? e := optional "epoch" number q in Some (GetRandao i e)));
  ("eth/v1/beacon/headers", Get ["slot"; "parent_root"] (fun _ q =>
     let? s := optional "slot" number q in let? r := optional "parent_root" (hex_of 32) q in
     match s, r with None, None => Some GetHeaderAtHead | Some s, None => Some (GetHeaderForSlot s) | None, Some r => Some (GetHeaderForParent r) | _, _ => None end));
  ("eth/v1/beacon/headers/*", get1 a_block GetHeader);
  ("eth/v1/beacon/blinded_blocks", post0 PostBlindedBlock);
  ("eth/v2/beacon/blinded_blocks", post_block PostBlindedBlockV2);
  ("eth/v1/beacon/blocks", post0 PostBlock);
  ("eth/v2/beacon/blocks", post_block PostBlockV2);
  ("eth/v2/beacon/blocks/*", get1 a_block GetBlock);
  ("eth/v1/beacon/blocks/*/root", get1 a_block GetBlockRoot);
  ("eth/v1/beacon/blocks/*/attestations", get1 a_block GetBlockAttestations);
  ("eth/v1/beacon/blob_sidecars/*", get1q ["indices"] a_block (fun b q => let? l := listed "indices" number q in Some (GetBlobSidecars b l)));
  ("eth/v1/beacon/deposit_snapshot", get0 GetDepositSnapshot);
  ("eth/v1/beacon/blinded_blocks/*", get1 a_block GetBlindedBlock);
  ("eth/v1/beacon/light_client/bootstrap/*", get1 (hex_of 32) GetBootstrap);
  ("eth/v1/beacon/light_client/updates", Get ["start_period"; "count"] (fun _ q =>
     let? s := required "start_period" number q in let? n := required "count" number q in Some (GetUpdates s n)));
  ("eth/v1/beacon/light_client/finality_update", get0 GetFinalityUpdate);
  ("eth/v1/beacon/light_client/optimistic_update", get0 GetOptimisticUpdate);
  ("eth/v1/beacon/pool/attestations", Get ["slot"; "committee_index"] (fun _ q =>
     let? s := optional "slot" number q in let? i := optional "committee_index" number q in Some (GetPoolAttestations s i)));
  ("eth/v1/beacon/pool/attestations", post0 PostAttestations);
  ("eth/v1/beacon/pool/attester_slashings", get0 GetPoolAttesterSlashings);
  ("eth/v1/beacon/pool/attester_slashings", post0 PostAttesterSlashing);
  ("eth/v1/beacon/pool/proposer_slashings", get0 GetPoolProposerSlashings);
  ("eth/v1/beacon/pool/proposer_slashings", post0 PostProposerSlashing);
  ("eth/v1/beacon/pool/sync_committees", post0 PostSyncMessages);
  ("eth/v1/beacon/pool/voluntary_exits", get0 GetPoolExits);
  ("eth/v1/beacon/pool/voluntary_exits", post0 PostExit);
  ("eth/v1/beacon/pool/bls_to_execution_changes", get0 GetPoolChanges);
  ("eth/v1/beacon/pool/bls_to_execution_changes", post0 PostChanges);
  ("eth/v1/builder/states/*/expected_withdrawals", get1q ["proposal_slot"] a_state (fun i q =>
     let? s := optional "proposal_slot" number q in Some (GetExpectedWithdrawals i s)));
  ("eth/v1/config/fork_schedule", get0 GetForkSchedule);
  ("eth/v1/config/spec", get0 GetSpec);
  ("eth/v1/config/deposit_contract", get0 GetDepositContract);
  ("eth/v2/debug/beacon/states/*", get1 a_state GetState);
  ("eth/v2/debug/beacon/heads", get0 GetHeads);
  ("eth/v1/events", Get ["topics"] (fun _ q => let? t := required "topics" a_text q in Some (GetEvents t)));
  ("eth/v1/node/identity", get0 GetIdentity);
  ("eth/v1/node/peers", Get ["state"; "direction"] (fun _ q =>
     let? s := listed "state" a_peer_state q in let? o := listed "direction" a_direction q in Some (GetPeers s o)));
  ("eth/v1/node/peers/*", get1 a_text GetPeer);
  ("eth/v1/node/peer_count", get0 GetPeerCount);
  ("eth/v1/node/version", get0 GetVersion);
  ("eth/v1/node/syncing", get0 GetSyncing);
  ("eth/v1/node/health", get0 GetHealth);
  ("eth/v1/validator/duties/attester/*", post_indices GetAttesterDuties);
  ("eth/v1/validator/duties/proposer/*", get1 number GetProposerDuties);
  ("eth/v1/validator/duties/sync/*", post_indices GetSyncDuties);
  ("eth/v2/validator/blocks/*", proposal GetBlockProposal);
  ("eth/v1/validator/blinded_blocks/*", proposal GetBlindedProposal);
  ("eth/v1/validator/attestation_data", Get ["slot"; "committee_index"] (fun _ q =>
     let? s := required "slot" number q in let? i := required "committee_index" number q in Some (GetAttestationData s i)));
  ("eth/v1/validator/aggregate_attestation", Get ["attestation_data_root"; "slot"] (fun _ q =>
     let? r := required "attestation_data_root" (hex_of 32) q in let? s := required "slot" number q in Some (GetAggregate r s)));
  ("eth/v1/validator/aggregate_and_proofs", post0 PostAggregates);
  ("eth/v1/validator/beacon_committee_subscriptions", post0 SubscribeCommittees);
  ("eth/v1/validator/sync_committee_subscriptions", post0 SubscribeSync);
  ("eth/v1/validator/sync_committee_contribution", Get ["slot"; "subcommittee_index"; "beacon_block_root"] (fun _ q =>
     let? s := required "slot" number q in let? i := required "subcommittee_index" number q in
     let? r := required "beacon_block_root" (hex_of 32) q in Some (GetContribution s i r)));
  ("eth/v1/validator/contribution_and_proofs", post0 PostContributions);
  ("eth/v1/validator/prepare_beacon_proposer", post0 PrepareProposers);
  ("eth/v1/validator/register_validator", post0 RegisterValidators);
  ("eth/v1/validator/liveness/*", post_indices PostLiveness)].

(** what one endpoint makes of the arguments and the request; the outer [None]: not meant for this endpoint *)
Definition perform (a : action) (l : list text) (r : Request) : option (option Call) :=
  match a, rq_method r with
  | Get keys g, GET => Some (match rq_version r, rq_body r with None, None => if only keys (rq_query r) then g l (rq_query r) else None | _, _ => None end)
  | Post g, POST => Some (match rq_version r, rq_query r, rq_body r with None, [], Some b => g l b | _, _, _ => None end)
  | PostVersioned keys g, POST => Some (match rq_version r, rq_body r with
      | Some v, Some b => let? f := a_fork v in if only keys (rq_query r) then g f (rq_query r) b else None
      | _, _ => None end)
  | _, _ => None
  end.
Fixpoint dispatch (table : list (string * action)) (path : list text) (r : Request) : option Call :=
  match table with
  | [] => None
  | (template, a) :: rest =>
    match arguments (split slash (text_of template)) path with
    | Some l => match perform a l r with Some c => c | None => dispatch rest path r end
    | None => dispatch rest path r
    end
  end.
Fixpoint below (base t : text) : option text :=
  match base, t with
  | [], _ => Some t
  | c :: b, d :: r => if c =? d then below b r else None
  | _, _ => None
  end.
Definition serve (base : text) (r : Request) : option Call :=
  let? path := below base (rq_path r) in dispatch endpoints (split slash path) r.

(** ** Arguments that exist: numbers below 2^64, byte strings of the type's length, names without a slash *)
Definition u64 (n : N) : Prop := n < 2 ^ 64.
Definition of_len (n : N) (b : bytes) : Prop := lenN b = n /\ Forall (fun x => x < 256) b.
Definition opt_all {A} (P : A -> Prop) (o : option A) : Prop := match o with Some x => P x | None => True end.
Definition state_ok (i : StateId) : Prop := match i with SSlot s => u64 s | SRoot r => of_len 32 r | _ => True end.
Definition block_ok (i : BlockId) : Prop := match i with BSlot s => u64 s | BRoot r => of_len 32 r | _ => True end.
Definition validator_ok (v : PublicKeyOrIndex) : Prop := match v with ByKey k => of_len 48 k | ByIndex i => u64 i end.
Definition name_ok (t : text) : Prop := t <> [] /\ ~ In slash t.
Definition call_ok (c : Call) : Prop :=
  match c with
  | GetStateRoot i | GetFork i | GetFinalityCheckpoints i | GetState i => state_ok i
  | GetValidators i ids _ | GetBalances i ids => state_ok i /\ Forall validator_ok ids
  | GetValidator i v => state_ok i /\ validator_ok v
  | GetCommittees i e x s => state_ok i /\ opt_all u64 e /\ opt_all u64 x /\ opt_all u64 s
  | GetSyncCommittees i e | GetRandao i e | GetExpectedWithdrawals i e => state_ok i /\ opt_all u64 e
  | GetHeaderForSlot s | GetProposerDuties s => u64 s
  | GetHeaderForParent r | GetBootstrap r => of_len 32 r
  | GetHeader b | GetBlock b | GetBlockRoot b | GetBlockAttestations b | GetBlindedBlock b => block_ok b
  | GetBlobSidecars b l => block_ok b /\ Forall u64 l
  | GetUpdates a b | GetAttestationData a b => u64 a /\ u64 b
  | GetPoolAttestations a b => opt_all u64 a /\ opt_all u64 b
  | GetEvents t | GetPeer t => name_ok t
  | GetAttesterDuties e l | GetSyncDuties e l | PostLiveness e l => u64 e /\ Forall u64 l
  | GetBlockProposal s r g | GetBlindedProposal s r g => u64 s /\ of_len 96 r /\ opt_all (of_len 32) g
  | GetAggregate r s => of_len 32 r /\ u64 s
  | GetContribution s i r => u64 s /\ u64 i /\ of_len 32 r
  | _ => True
  end.

(** ** Responses *)
(** an object with the value [v] under [name] *)
Definition has (o : json) (name : string) (v : json) : Prop := exists kvs, o = JObj kvs /\ lookup name kvs = Some v.
Definition lacks (o : json) (name : string) : Prop := forall v, ~ has o name v.
(** the error objects of the API *)
Definition failure_object (o : json) (x : N * string) : Prop := has o "index" (JNum (fst x)) /\ has o "message" (JStr (snd x)) /\ fst x < 2 ^ 64.
Definition error_object (o : json) (code : N) (message : string) : Prop := has o "code" (JNum code) /\ has o "message" (JStr message) /\ 100 <= code <= 999.
Definition accepted_status (s : N) : Prop := s = 200 \/ s = 202.
(** the header summaries, the randao mix and the hex texts the API sends; the block header itself is left open *)
Definition is_object (o : json) : Prop := exists kvs, o = JObj kvs.
