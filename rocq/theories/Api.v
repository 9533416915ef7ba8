(** * Beacon API client: beacon-api-client/src/api_client.rs, types.rs, api_error.rs

    A call is one method of [Client] with its arguments; [request] is the HTTP request the method sends.  The arguments that the client
    only serializes (blocks, attestations, ...) are given by their JSON text, the value [json].  Transport, URL escaping of query values
    and the JSON text are external. *)
From Coq Require Import Ascii String.
From Verif Require Import Base Types Text Json.
Local Open Scope string_scope.
Local Open Scope N_scope.
Local Open Scope list_scope.

(** ** Arguments *)
(** types.rs:186-200; [{pk:?}] of a public key is its 0x-prefixed lower-case hex text *)
Inductive PublicKeyOrIndex : Type := ByKey (pk : bytes) | ByIndex (i : N).
Definition pki_text (x : PublicKeyOrIndex) : text := match x with ByKey pk => to_hex pk | ByIndex i => u64_text i end.
(** types.rs:148-184; [Withdrawn] is the variant [Withdrawal] *)
Inductive ValidatorStatus : Type :=
| PendingInitialized | PendingQueued | ActiveOngoing | ActiveExiting | ActiveSlashed | ExitedUnslashed | ExitedSlashed | WithdrawalPossible
| WithdrawalDone | Active | Pending | Exited | Withdrawn.
Definition status_text (x : ValidatorStatus) : text :=
  match x with
  | PendingInitialized => txt "pending_initialized" | PendingQueued => txt "pending_queued" | ActiveOngoing => txt "active_ongoing"
  | ActiveExiting => txt "active_exiting" | ActiveSlashed => txt "active_slashed" | ExitedUnslashed => txt "exited_unslashed"
  | ExitedSlashed => txt "exited_slashed" | WithdrawalPossible => txt "withdrawal_possible" | WithdrawalDone => txt "withdrawal_done"
  | Active => txt "active" | Pending => txt "pending" | Exited => txt "exited" | Withdrawn => txt "withdrawal"
  end.
(** types.rs:265-282; the query uses the derived [Serialize] with snake_case names, which are the same texts *)
Inductive BroadcastValidation : Type := Gossip | Consensus | ConsensusAndEquivocation.
Definition broadcast_text (x : BroadcastValidation) : text :=
  match x with Gossip => txt "gossip" | Consensus => txt "consensus" | ConsensusAndEquivocation => txt "consensus_and_equivocation" end.
(** types.rs:334-371 *)
Inductive PeerState : Type := Disconnected | Connecting | Connected | Disconnecting.
Definition peer_state_text (x : PeerState) : text :=
  match x with Disconnected => txt "disconnected" | Connecting => txt "connecting" | Connected => txt "connected" | Disconnecting => txt "disconnecting" end.
Inductive Orientation : Type := Inbound | Outbound.
Definition orientation_text (x : Orientation) : text := match x with Inbound => txt "inbound" | Outbound => txt "outbound" end.
(** ethereum-consensus/src/fork.rs:15-26 (and the serde names, 5) *)
Definition fork_text (f : Fork) : text :=
  match f with Phase0 => txt "phase0" | Altair => txt "altair" | Bellatrix => txt "bellatrix" | Capella => txt "capella" | Deneb => txt "deneb" | Electra => txt "electra" end.

(** ** The methods of [Client], in the order of the source; a peer id is given by its base-58 text *)
Inductive Call : Type :=
| GetGenesis | GetStateRoot (i : StateId) | GetFork (i : StateId) | GetFinalityCheckpoints (i : StateId)
| GetValidators (i : StateId) (ids : list PublicKeyOrIndex) (statuses : list ValidatorStatus) | GetValidator (i : StateId) (v : PublicKeyOrIndex)
| GetBalances (i : StateId) (ids : list PublicKeyOrIndex) | GetCommittees (i : StateId) (epoch index slot : option N)
| GetSyncCommittees (i : StateId) (epoch : option N) | GetRandao (i : StateId) (epoch : option N)
| GetHeaderAtHead | GetHeaderForSlot (slot : N) | GetHeaderForParent (root : bytes) | GetHeader (b : BlockId)
| PostBlindedBlock (x : json) | PostBlindedBlockV2 (x : json) (f : Fork) (v : option BroadcastValidation)
| PostBlock (x : json) | PostBlockV2 (x : json) (f : Fork) (v : option BroadcastValidation)
| GetBlock (b : BlockId) | GetBlockRoot (b : BlockId) | GetBlockAttestations (b : BlockId) | GetBlobSidecars (b : BlockId) (indices : list N)
| GetDepositSnapshot | GetBlindedBlock (b : BlockId) | GetBootstrap (root : bytes) | GetUpdates (start count : N) | GetFinalityUpdate | GetOptimisticUpdate
| GetPoolAttestations (slot index : option N) | PostAttestations (x : json) | GetPoolAttesterSlashings | PostAttesterSlashing (x : json)
| GetPoolProposerSlashings | PostProposerSlashing (x : json) | PostSyncMessages (x : json) | GetPoolExits | PostExit (x : json)
| GetPoolChanges | PostChanges (x : json) | GetExpectedWithdrawals (i : StateId) (slot : option N)
| GetForkSchedule | GetSpec | GetDepositContract | GetState (i : StateId) | GetHeads | GetEvents (topic : text)
| GetIdentity | GetPeers (states : list PeerState) (orientations : list Orientation) | GetPeer (id : text) | GetPeerCount | GetVersion | GetSyncing | GetHealth
| GetAttesterDuties (epoch : N) (indices : list N) | GetProposerDuties (epoch : N) | GetSyncDuties (epoch : N) (indices : list N)
| GetBlockProposal (slot : N) (reveal : bytes) (graffiti : option bytes) | GetBlindedProposal (slot : N) (reveal : bytes) (graffiti : option bytes)
| GetAttestationData (slot index : N) | GetAggregate (root : bytes) (slot : N) | PostAggregates (x : json)
| SubscribeCommittees (x : json) | SubscribeSync (x : json) | GetContribution (slot index : N) (root : bytes) | PostContributions (x : json)
| PrepareProposers (x : json) | RegisterValidators (x : json) | PostLiveness (epoch : N) (indices : list N).

(** ** Requests *)
Inductive Method : Type := GET | POST.
Record Request : Type := mkRequest {
  rq_method : Method; rq_path : text; rq_query : list (text * text); rq_version : option text; rq_body : option json }.
(** a query parameter: a text, or a sequence of texts *)
Inductive query_value : Type := QText (t : text) | QSeq (l : list text).

(** api_client.rs:105-109 [http_get], without the [join] with the endpoint *)
Definition get (path : text) : option Request := Some (mkRequest GET path [] None None).
(** 120-128 [http_post] *)
Definition post (path : text) (x : json) : option Request := Some (mkRequest POST path [] None (Some x)).
(** reqwest's [RequestBuilder::query], which writes the pairs with serde_urlencoded: a value that is a sequence is an error, and the
    error is what [send] returns *)
Definition query (k : string) (v : query_value) (r : option Request) : option Request :=
  match r, v with
  | Some r, QText t => Some (mkRequest (rq_method r) (rq_path r) (rq_query r ++ [(txt k, t)]) (rq_version r) (rq_body r))
  | _, _ => None
  end.
Definition query_opt (k : string) (v : option text) (r : option Request) : option Request :=
  match v with Some t => query k (QText t) r | None => r end.
(** [Itertools::join] *)
Fixpoint join_comma (l : list text) : text :=
  match l with
  | [] => []
  | [t] => t
  | t :: rest => t ++ txt "," ++ join_comma rest
  end.
Definition query_list (k : string) (l : list text) (r : option Request) : option Request :=
  match l with [] => r | _ => query k (QText (join_comma l)) r end.
Definition version_header (f : Fork) (r : option Request) : option Request :=
  match r with Some r => Some (mkRequest (rq_method r) (rq_path r) (rq_query r) (Some (fork_text f)) (rq_body r)) | None => None end.
(** a JSON string *)
Definition jtext (t : text) : json := JStr (string_of_list_ascii (map ascii_of_N t)).
(** 689, 720: the indices as strings *)
Definition index_strings (l : list N) : json := JArr (map (fun i => jtext (u64_text i)) l).
(** 869-870: the indices as they are *)
Definition index_numbers (l : list N) : json := JArr (map JNum l).
Definition omap {A B} (g : A -> B) (o : option A) : option B := match o with Some x => Some (g x) | None => None end.

(** api_client.rs:131-877, one line per method *)
Definition request (c : Call) : option Request :=
  match c with
  | GetGenesis => get (txt "eth/v1/beacon/genesis")
  | GetStateRoot i => get (txt "eth/v1/beacon/states/" ++ state_id_text i ++ txt "/root")
  | GetFork i => get (txt "eth/v1/beacon/states/" ++ state_id_text i ++ txt "/fork")
  | GetFinalityCheckpoints i => get (txt "eth/v1/beacon/states/" ++ state_id_text i ++ txt "/finality_checkpoints")
  | GetValidators i ids sts => query_list "status" (map status_text sts) (query_list "id" (map pki_text ids)
      (get (txt "eth/v1/beacon/states/" ++ state_id_text i ++ txt "/validators")))
  | GetValidator i v => get (txt "eth/v1/beacon/states/" ++ state_id_text i ++ txt "/validators/" ++ pki_text v)
  | GetBalances i ids => query_list "id" (map pki_text ids) (get (txt "eth/v1/beacon/states/" ++ state_id_text i ++ txt "/validator_balances"))
  | GetCommittees i e x s => query_opt "slot" (omap u64_text s) (query_opt "index" (omap u64_text x) (query_opt "epoch" (omap u64_text e)
      (get (txt "eth/v1/beacon/states/" ++ state_id_text i ++ txt "/committees"))))
  | GetSyncCommittees i e => query_opt "epoch" (omap u64_text e) (get (txt "eth/v1/beacon/states/" ++ state_id_text i ++ txt "/sync_committees"))
  | GetRandao i e => query_opt "epoch" (omap u64_text e) (get (txt "eth/v1/beacon/states/" ++ state_id_text i ++ txt "/randao"))
  | GetHeaderAtHead => get (txt "eth/v1/beacon/headers")
  | GetHeaderForSlot s => query "slot" (QText (u64_text s)) (get (txt "eth/v1/beacon/headers"))
  | GetHeaderForParent r => query "parent_root" (QText (to_hex r)) (get (txt "eth/v1/beacon/headers"))
  | GetHeader b => get (txt "eth/v1/beacon/headers/" ++ block_id_text b)
  | PostBlindedBlock x => post (txt "eth/v1/beacon/blinded_blocks") x
  | PostBlindedBlockV2 x f v => query_opt "broadcast_validation" (omap broadcast_text v) (version_header f (post (txt "eth/v2/beacon/blinded_blocks") x))
  | PostBlock x => post (txt "eth/v1/beacon/blocks") x
  | PostBlockV2 x f v => query_opt "broadcast_validation" (omap broadcast_text v) (version_header f (post (txt "eth/v2/beacon/blocks") x))
  | GetBlock b => get (txt "eth/v2/beacon/blocks/" ++ block_id_text b)
  | GetBlockRoot b => get (txt "eth/v1/beacon/blocks/" ++ block_id_text b ++ txt "/root")
  | GetBlockAttestations b => get (txt "eth/v1/beacon/blocks/" ++ block_id_text b ++ txt "/attestations")
  | GetBlobSidecars b l =>
      let r := get (txt "eth/v1/beacon/blob_sidecars/" ++ block_id_text b) in
      match l with [] => r | _ => query "indices" (QSeq (map u64_text l)) r end
  | GetDepositSnapshot => get (txt "eth/v1/beacon/deposit_snapshot")
  | GetBlindedBlock b => get (txt "eth/v1/beacon/blinded_blocks/" ++ block_id_text b)
  | GetBootstrap r => get (txt "eth/v1/beacon/light_client/bootstrap/" ++ to_hex r)
  | GetUpdates s n => query "count" (QText (u64_text n)) (query "start_period" (QText (u64_text s)) (get (txt "eth/v1/beacon/light_client/updates")))
  | GetFinalityUpdate => get (txt "eth/v1/beacon/light_client/finality_update")
  | GetOptimisticUpdate => get (txt "eth/v1/beacon/light_client/optimistic_update")
  | GetPoolAttestations s i => query_opt "committee_index" (omap u64_text i) (query_opt "slot" (omap u64_text s) (get (txt "eth/v1/beacon/pool/attestations")))
  | PostAttestations x => post (txt "eth/v1/beacon/pool/attestations") x
  | GetPoolAttesterSlashings => get (txt "eth/v1/beacon/pool/attester_slashings")
  | PostAttesterSlashing x => post (txt "eth/v1/beacon/pool/attester_slashings") x
  | GetPoolProposerSlashings => get (txt "eth/v1/beacon/pool/proposer_slashings")
  | PostProposerSlashing x => post (txt "eth/v1/beacon/pool/proposer_slashings") x
  | PostSyncMessages x => post (txt "eth/v1/beacon/pool/sync_committees") x
  | GetPoolExits => get (txt "eth/v1/beacon/pool/voluntary_exits")
  | PostExit x => post (txt "eth/v1/beacon/pool/voluntary_exits") x
  | GetPoolChanges => get (txt "eth/v1/beacon/pool/bls_to_execution_changes")
  | PostChanges x => post (txt "eth/v1/beacon/pool/bls_to_execution_changes") x
  | GetExpectedWithdrawals i s => query_opt "proposal_slot" (omap u64_text s) (get (txt "eth/v1/builder/states/" ++ state_id_text i ++ txt "/expected_withdrawals"))
  | GetForkSchedule => get (txt "eth/v1/config/fork_schedule")
  | GetSpec => get (txt "eth/v1/config/spec")
  | GetDepositContract => get (txt "eth/v1/config/deposit_contract")
  | GetState i => get (txt "eth/v2/debug/beacon/states/" ++ state_id_text i)
  | GetHeads => get (txt "eth/v2/debug/beacon/heads")
  | GetEvents t => query "topics" (QText t) (get (txt "/eth/v1/events"))
  | GetIdentity => get (txt "eth/v1/node/identity")
  | GetPeers sts os => query_list "direction" (map orientation_text os) (query_list "state" (map peer_state_text sts) (get (txt "eth/v1/node/peers")))
  | GetPeer p => get (txt "/eth/v1/node/peers/" ++ p)
  | GetPeerCount => get (txt "eth/v1/node/peer_count")
  | GetVersion => get (txt "eth/v1/node/version")
  | GetSyncing => get (txt "eth/v1/node/syncing")
  | GetHealth => get (txt "eth/v1/node/health")
  | GetAttesterDuties e l => post (txt "eth/v1/validator/duties/attester/" ++ u64_text e) (index_strings l)
  | GetProposerDuties e => get (txt "eth/v1/validator/duties/proposer/" ++ u64_text e)
  | GetSyncDuties e l => post (txt "eth/v1/validator/duties/sync/" ++ u64_text e) (index_strings l)
  | GetBlockProposal s r g => query_opt "graffiti" (omap to_hex g) (query "randao_reveal" (QText (to_hex r)) (get (txt "eth/v2/validator/blocks/" ++ u64_text s)))
  | GetBlindedProposal s r g => query_opt "graffiti" (omap to_hex g) (query "randao_reveal" (QText (to_hex r)) (get (txt "eth/v1/validator/blinded_blocks/" ++ u64_text s)))
  | GetAttestationData s i => query "committee_index" (QText (u64_text i)) (query "slot" (QText (u64_text s)) (get (txt "eth/v1/validator/attestation_data")))
  | GetAggregate r s => query "slot" (QText (u64_text s)) (query "attestation_data_root" (QText (to_hex r)) (get (txt "eth/v1/validator/aggregate_attestation")))
  | PostAggregates x => post (txt "eth/v1/validator/aggregate_and_proofs") x
  | SubscribeCommittees x => post (txt "eth/v1/validator/beacon_committee_subscriptions") x
  | SubscribeSync x => post (txt "eth/v1/validator/sync_committee_subscriptions") x
  | GetContribution s i r => query "beacon_block_root" (QText (to_hex r)) (query "subcommittee_index" (QText (u64_text i)) (query "slot" (QText (u64_text s))
      (get (txt "eth/v1/validator/sync_committee_contribution"))))
  | PostContributions x => post (txt "eth/v1/validator/contribution_and_proofs") x
  | PrepareProposers x => post (txt "eth/v1/validator/prepare_beacon_proposer") x
  | RegisterValidators x => post (txt "eth/v1/validator/register_validator") x
  | PostLiveness e l => post (txt "eth/v1/validator/liveness/" ++ u64_text e) (index_numbers l)
  end.

(** ** [Url::join] (crate url) for the paths above, on the path of the endpoint: a path that starts with a slash replaces the whole path;
    another one replaces the part behind the last slash.  The path of a URL starts with a slash. *)
Fixpoint up_to_slash (t : text) : text :=
  match t with
  | [] => []
  | c :: rest => match up_to_slash rest with
                 | [] => if c =? 47 then [47] else []
                 | u => c :: u
                 end
  end.
Definition join (base path : text) : text :=
  match path with
  | 47 :: _ => path
  | _ => up_to_slash base ++ path
  end.

(** what goes to the server whose endpoint has the path [base]: [self.endpoint.join(path)] in every method; [None]: nothing is sent *)
Definition send (base : text) (c : Call) : option Request :=
  match request c with
  | Some r => Some (mkRequest (rq_method r) (join base (rq_path r)) (rq_query r) (rq_version r) (rq_body r))
  | None => None
  end.

(** ** Responses *)
(** api_error.rs:6-28; the code of an [http::StatusCode] is from 100 to 999 *)
Inductive ApiError : Type := IndexedError (code : N) (message : string) (failures : list (N * string)) | ErrorMessage (code : N) (message : string).
(** lib.rs:16-34 *)
Inductive ClientError : Type := ErrApi (e : ApiError) | ErrHttp | ErrMissing | ErrJson.
Inductive outcome (A : Type) : Type := Good (a : A) | Bad (e : ClientError).
Arguments Good {A} _. Arguments Bad {A} _.

(** the derived decoders: a struct is read from an object (unknown fields ignored) or from the array of its fields; a variant of an
    untagged enum, only from an object.  An object has no two fields of the same name (the decoders refuse those they know). *)
Definition field (name : string) (pos arity : nat) (v : json) : option json :=
  match v with
  | JObj kvs => lookup name kvs
  | JArr l => if Nat.eqb (List.length l) arity then nth_error l pos else None
  | _ => None
  end.
Definition key (name : string) (v : json) : option json := match v with JObj kvs => lookup name kvs | _ => None end.
Definition obind {A B} (o : option A) (g : A -> option B) : option B := match o with Some x => g x | None => None end.
Definition dec_string (v : json) : option string := match v with JStr t => Some t | _ => None end.
(** serde.rs:3-21 [as_u16] *)
Definition dec_status (v : json) : option N := match v with JNum n => if (100 <=? n) && (n <=? 999) then Some n else None | _ => None end.
Definition dec_usize (v : json) : option N := match v with JNum n => if n <? 2 ^ 64 then Some n else None | _ => None end.
Fixpoint dec_all {A} (d : json -> option A) (l : list json) : option (list A) :=
  match l with
  | [] => Some []
  | x :: r => obind (d x) (fun a => obind (dec_all d r) (fun t => Some (a :: t)))
  end.
Definition dec_vec {A} (d : json -> option A) (v : json) : option (list A) := match v with JArr l => dec_all d l | _ => None end.
Definition dec_failure (v : json) : option (N * string) :=
  obind (obind (field "index" 0 2 v) dec_usize) (fun i => obind (obind (field "message" 1 2 v) dec_string) (fun m => Some (i, m))).
(** api_error.rs:6-28: the first variant that fits *)
Definition dec_error (v : json) : option ApiError :=
  match obind (obind (key "code" v) dec_status) (fun c =>
        obind (obind (key "message" v) dec_string) (fun m =>
        obind (obind (key "failures" v) (dec_vec dec_failure)) (fun f => Some (IndexedError c m f)))) with
  | Some e => Some e
  | None => obind (obind (key "code" v) dec_status) (fun c =>
            obind (obind (key "message" v) dec_string) (fun m => Some (ErrorMessage c m)))
  end.
(** the derived [Serialize] of [ApiError] *)
Definition enc_error (e : ApiError) : json :=
  match e with
  | IndexedError c m f => JObj [("code"%string, JNum c); ("message"%string, JStr m);
      ("failures"%string, JArr (map (fun p => JObj [("index"%string, JNum (fst p)); ("message"%string, JStr (snd p))]) f))]
  | ErrorMessage c m => JObj [("code"%string, JNum c); ("message"%string, JStr m)]
  end.

Section Decode.
Context {T : Type}.
(** the decoder of the requested type *)
Variable dec : json -> option T.
(** types.rs:502-508 [Value]: an object with [data]; the other fields become [meta] ([serde(flatten)], so arrays are not accepted) *)
Definition dec_value (v : json) : option (T * list (string * json)) :=
  match v with
  | JObj kvs => obind (obind (lookup "data" kvs) dec) (fun d => Some (d, filter (fun p => negb (String.eqb (fst p) "data")) kvs))
  | _ => None
  end.
(** types.rs:510-518 [VersionedValue]: a known fork name in [version], too *)
Definition fork_of_name (s : string) : option Fork :=
  if String.eqb s "phase0" then Some Phase0 else if String.eqb s "altair" then Some Altair else if String.eqb s "bellatrix" then Some Bellatrix
  else if String.eqb s "capella" then Some Capella else if String.eqb s "deneb" then Some Deneb else if String.eqb s "electra" then Some Electra else None.
Definition dec_versioned (v : json) : option (Fork * T) :=
  match v with
  | JObj kvs => obind (obind (obind (lookup "version" kvs) dec_string) fork_of_name) (fun f => obind (obind (lookup "data" kvs) dec) (fun d => Some (f, d)))
  | _ => None
  end.
End Decode.

(** a response: its status and, if the body is JSON, the value *)
Record Response : Type := mkResponse { rs_status : N; rs_body : option json }.
(** types.rs:520-526 [ApiResult], untagged, with api_client.rs:94-103 [get] (and the same code in the other GET methods): the value if it
    decodes, else an API error if that decodes, else a decoding error *)
Definition read_result {T} (dec : json -> option T) (r : Response) : outcome T :=
  match rs_body r with
  | None => Bad ErrHttp
  | Some v => match dec v with
              | Some x => Good x
              | None => match dec_error v with Some e => Bad (ErrApi e) | None => Bad ErrHttp end
              end
  end.
(** the [data] of a [Value] *)
Definition read_data {T} (dec : json -> option T) (r : Response) : outcome T :=
  match read_result (dec_value dec) r with Good x => Good (fst x) | Bad e => Bad e end.
(** api_client.rs:33-41 [api_error_or_ok] *)
Definition api_error_or_ok (r : Response) : outcome unit :=
  if (rs_status r =? 200) || (rs_status r =? 202) then Good tt
  else match obind (rs_body r) dec_error with Some e => Bad (ErrApi e) | None => Bad ErrHttp end.
(** 43-56 [api_error_or_value] *)
Definition api_error_or_value {T} (dec : json -> option T) (r : Response) : outcome T :=
  if (rs_status r =? 200) || (rs_status r =? 202) then match obind (rs_body r) dec with Some x => Good x | None => Bad ErrHttp end
  else match obind (rs_body r) dec_error with Some e => Bad (ErrApi e) | None => Bad ErrHttp end.
(** 683-698 [get_attester_duties] (the response of 700-711 [get_proposer_duties] is read by [read_result] instead) *)
Definition with_dependent_root {T} (root : json -> option bytes) (x : outcome (T * list (string * json))) : outcome (bytes * T) :=
  match x with
  | Bad e => Bad e
  | Good (d, meta) => match lookup "dependent_root" meta with
                      | None => Bad ErrMissing
                      | Some v => match root v with Some r => Good (r, d) | None => Bad ErrJson end
                      end
  end.
Definition read_attester_duties {T} (root : json -> option bytes) (dec : json -> option T) (r : Response) : outcome (bytes * T) :=
  with_dependent_root root (api_error_or_value (dec_value dec) r).
Definition read_proposer_duties {T} (root : json -> option bytes) (dec : json -> option T) (r : Response) : outcome (bytes * T) :=
  with_dependent_root root (read_result (dec_value dec) r).
(** 668-680 [get_health] *)
Inductive HealthStatus : Type := Ready | Syncing | NotInitialized | Unknown.
Definition read_health (status : N) : HealthStatus :=
  if status =? 200 then Ready else if status =? 206 then Syncing else if status =? 503 then NotInitialized else Unknown.

(** ** Some decoders of the requested types *)
Definition dec_bool (v : json) : option bool := match v with JBool b => Some b | _ => None end.
(** a 32-byte value: crate ssz_rs and serde.rs:58-69, from a string only *)
Definition dec_bytes32 (v : json) : option bytes :=
  match v with
  | JStr t => match byte_vector_from_hex 32 (map N_of_ascii (list_ascii_of_string t)) with Ok b => Some b | _ => None end
  | _ => None
  end.
(** types.rs:258-263 [BeaconHeaderSummary]; the decoder of the signed header is a parameter *)
Definition dec_header_summary {H} (header : json -> option H) (v : json) : option (bytes * bool * H) :=
  obind (obind (field "root" 0 3 v) dec_bytes32) (fun r =>
  obind (obind (field "canonical" 1 3 v) dec_bool) (fun c =>
  obind (obind (field "header" 2 3 v) header) (fun h => Some (r, c, h)))).
(** types.rs:108-111 [RootData] *)
Definition dec_root (v : json) : option bytes := obind (field "root" 0 1 v) dec_bytes32.
(** api_client.rs: [get_beacon_header_at_head], [..._for_slot], [..._for_parent_root] and [get_beacon_header] read one summary;
    [get_randao] reads 32 bytes; [get_light_client_updates] reads the [data] of one object *)
Definition read_header {H} (header : json -> option H) : Response -> outcome (bytes * bool * H) := read_data (dec_header_summary header).
Definition read_randao : Response -> outcome bytes := read_data dec_bytes32.
Definition read_updates {U} (update : json -> option U) : Response -> outcome (list U) := read_data (dec_vec update).
(** [get_state_root], [get_beacon_block_root] *)
Definition read_root : Response -> outcome bytes := read_data dec_root.
(** [get_beacon_block], [get_blinded_block], [get_state], [get_block_proposal], [get_blinded_block_proposal] *)
Definition read_versioned {T} (dec : json -> option T) (r : Response) : outcome T :=
  match read_result (dec_versioned dec) r with Good x => Good (snd x) | Bad e => Bad e end.
