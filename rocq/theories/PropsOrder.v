(** * The order of processing (C80) *)
From Verif Require Import Base BaseLemmas Types Ctx Presets Env Helpers HelpersAltair HelpersElectra Block Epoch Transition StLemmas SpecCommon SpecOps SpecOrder ToyCtx Toy Toy2 Toy3.

(** the code of each step; its effect is the subject of the property named beside it *)
Definition epoch_step (E : Env) (f : Fork) (x : EpochStep) : St BeaconState unit :=
  match x with
  | SJustification => process_justification_and_finalization E f       (* C16, C17 *)
  | SInactivity => process_inactivity_updates E                        (* C34 *)
  | SRewards => process_rewards_and_penalties E f                      (* C32 *)
  | SRegistry => process_registry_updates E f                          (* C11, C46 *)
  | SSlashings => process_slashings E f                                (* C30 *)
  | SEth1Votes => process_eth1_data_reset E                            (* C31 *)
  | SPendingDeposits => process_pending_balance_deposits E             (* C50 *)
  | SPendingConsolidations => process_pending_consolidations E         (* C51 *)
  | SEffectiveBalances => process_effective_balance_updates E f        (* C29 *)
  | SSlashingsReset => process_slashings_reset E                       (* C31 *)
  | SRandaoReset => process_randao_mixes_reset E                       (* C31 *)
  | SHistorical => process_historical_update E f                       (* C31 *)
  | SParticipationRecords => process_participation_record_updates      (* C31 *)
  | SParticipationFlags => process_participation_flag_updates          (* C31 *)
  | SSyncCommittees => process_sync_committee_updates E                (* C35 *)
  end.
Definition operation_step (E : Env) (f : Fork) (o : Operation) : St BeaconState unit :=
  match o with
  | OpProposerSlashing x => process_proposer_slashing E f x            (* C14 *)
  | OpAttesterSlashing x => process_attester_slashing E f x            (* C13 *)
  | OpAttestation x => process_attestation E f x                       (* C25, C33, C45 *)
  | OpDeposit x => process_deposit E f x                               (* C27 *)
  | OpExit x => process_voluntary_exit E f x                           (* C15 *)
  | OpBlsChange x => process_bls_to_execution_change E x               (* C44 *)
  | OpWithdrawalRequest x => process_execution_layer_withdrawal_request E x  (* C53 *)
  | OpDepositReceipt x => process_deposit_receipt E x                  (* C56 *)
  | OpConsolidation x => process_consolidation E x                     (* C57 *)
  end.
Definition block_step (E : Env) (f : Fork) (b : BeaconBlock) (x : BlockStep) : St BeaconState unit :=
  let body := bk_body b in
  match x with
  | BHeader => process_block_header E f b                              (* C21 *)
  | BWithdrawals => process_withdrawals E f (bb_execution_payload body) (* C43, C54 *)
  | BPayloadIfEnabled => fun s => if is_execution_enabled E s body then process_execution_payload E f body s else (Ok tt, s)  (* C39 *)
  | BPayload => process_execution_payload E f body                     (* C40 *)
  | BRandao => process_randao E body                                   (* C23 *)
  | BEth1Vote => process_eth1_data E body                              (* C24 *)
  | BDepositCount => fun s => (deposit_count_check E f body s, s)      (* C27, C56 *)
  | BOperation o => operation_step E f o
  | BSyncAggregate => process_sync_aggregate E (bb_sync_aggregate body) (* C36 *)
  end.

Lemma run_steps_eq {X} (perform : X -> St BeaconState unit) l s : run_steps perform l s = sfor l perform s.
Proof.
  revert s. induction l as [|x l IH]; intros s; [reflexivity|]. cbn [run_steps]. rewrite sfor_cons. unfold sbind. destruct (perform x s) as [[[]| | |] s1]; [apply IH|reflexivity..].
Qed.
Lemma sfor_map {X Y} (g : X -> Y) (body : Y -> St BeaconState unit) l s : sfor (map g l) body s = sfor l (fun x => body (g x)) s.
Proof. revert s. induction l as [|x l IH]; intros s; [reflexivity|]. cbn [map]. rewrite !sfor_cons. unfold sbind. destruct (body (g x) s) as [[]]; try reflexivity. apply IH. Qed.
Lemma sbind_assoc {A B C} (m : St BeaconState A) (k : A -> St BeaconState B) (h : B -> St BeaconState C) s : sbind (sbind m k) h s = sbind m (fun a => sbind (k a) h) s.
Proof. unfold sbind. destruct (m s) as [[]]; reflexivity. Qed.
Lemma sbind_eq {A B} (m m' : St BeaconState A) (k k' : A -> St BeaconState B) s : (forall s, m s = m' s) -> (forall a s, k a s = k' a s) -> sbind m k s = sbind m' k' s.
Proof. intros H1 H2. unfold sbind. rewrite H1. destruct (m' s) as [[]]; try reflexivity. apply H2. Qed.
Lemma sbind_tt (m : St BeaconState unit) s : sbind m (fun _ => sret tt) s = m s.
Proof. unfold sbind. destruct (m s) as [[[]| | |]]; reflexivity. Qed.

Ltac forks := repeat match goal with |- context[fork_le ?a ?b] => let v := eval vm_compute in (fork_le a b) in change (fork_le a b) with v end.
Ltac step := cbv beta iota; match goal with |- _ = (match ?m with (_, _) => _ end) => let r := fresh "r" in let s1 := fresh "s" in destruct m as [[[]|?| |] s1]; [|reflexivity..] end.

(** ** an epoch transition runs exactly the steps of its fork in the protocol order, up to the first failure *)
Theorem C80_epoch_order : forall (E : Env) (f : Fork) (s : BeaconState), process_epoch E f s = run_steps (epoch_step E f) (epoch_steps f) s.
Proof.
  intros E f s. unfold process_epoch, swhen, sbind, sret. destruct f; cbn [epoch_steps run_steps epoch_step]; forks; repeat step; reflexivity.
Qed.
(** ** the operations of a block are all processed, in the order of the body *)
Theorem C80_operations_order : forall (E : Env) (f : Fork) (b : BeaconBlockBody) (s : BeaconState),
  process_operations E f b s = match deposit_count_check E f b s with
                               | Ok _ => run_steps (operation_step E f) (block_operations f b) s
                               | r => (r, s)
                               end.
Proof.
  intros E f b s. unfold process_operations. unfold sbind at 1, rd at 1. destruct (deposit_count_check E f b s) as [[]| | |]; [|reflexivity..].
  rewrite run_steps_eq. unfold block_operations.
  do 5 (rewrite sfor_app; apply sbind_eq; [intro; rewrite sfor_map; reflexivity|intros _; clear s; intros s]).
  destruct f; forks; cbn [app swhen]; try reflexivity.
  - unfold sbind, sret. rewrite app_nil_r, sfor_map. destruct (sfor _ _ s) as [[[]| | |]]; reflexivity.
  - unfold sbind, sret. rewrite app_nil_r, sfor_map. destruct (sfor _ _ s) as [[[]| | |]]; reflexivity.
  - rewrite sfor_app; apply sbind_eq; [intro; rewrite sfor_map; reflexivity|intros _; clear s; intros s].
    do 2 (rewrite sfor_app; apply sbind_eq; [intro; rewrite sfor_map; reflexivity|intros _; clear s; intros s]). rewrite sfor_map. reflexivity.
Qed.
(** ** and a block runs the header, payload, randao, eth1, operation and sync aggregate steps in the protocol order *)
Theorem C80_block_order : forall (E : Env) (f : Fork) (b : BeaconBlock) (s : BeaconState),
  process_block E f b s = run_steps (block_step E f b) (block_steps f (bk_body b)) s.
Proof.
  intros E f b s. rewrite run_steps_eq. unfold process_block, block_steps. cbv zeta. cbn [app]. rewrite sfor_cons. apply sbind_eq; [reflexivity|intros _; clear s; intros s].
  rewrite sfor_app. apply sbind_eq; [|intros _]; clear s; intros s.
  { destruct f; try reflexivity.
    - rewrite sfor_cons. change (sfor [] (block_step E Bellatrix b)) with (sret (S := BeaconState) tt). rewrite sbind_tt. cbn [block_step]. unfold sbind, rd, swhen. destruct (is_execution_enabled E s (bk_body b)); reflexivity.
    - rewrite !sfor_cons. apply sbind_eq; [reflexivity|intros _; clear s; intros s]. rewrite sfor_cons. change (sfor [] (block_step E Capella b)) with (sret (S := BeaconState) tt). rewrite sbind_tt. reflexivity.
    - rewrite !sfor_cons. apply sbind_eq; [reflexivity|intros _; clear s; intros s]. rewrite sfor_cons. change (sfor [] (block_step E Deneb b)) with (sret (S := BeaconState) tt). rewrite sbind_tt. reflexivity.
    - rewrite !sfor_cons. apply sbind_eq; [reflexivity|intros _; clear s; intros s]. rewrite sfor_cons. change (sfor [] (block_step E Electra b)) with (sret (S := BeaconState) tt). rewrite sbind_tt. reflexivity. }
  cbn [app]. rewrite sfor_cons. apply sbind_eq; [reflexivity|intros _; clear s; intros s].
  rewrite sfor_cons. apply sbind_eq; [reflexivity|intros _; clear s; intros s].
  change (BDepositCount :: ?l) with ([BDepositCount] ++ l). rewrite app_assoc, sfor_app. apply sbind_eq; [|intros _]; clear s; intros s.
  - rewrite C80_operations_order. cbn [app]. rewrite sfor_cons. unfold sbind. cbn [block_step]. destruct (deposit_count_check E f (bk_body b) s) as [[]| | |]; [|reflexivity..].
    rewrite run_steps_eq, sfor_map. reflexivity.
  - destruct f; try reflexivity; rewrite sfor_cons; (match goal with |- _ = sbind _ (fun _ => sfor [] ?g) _ => change (sfor [] g) with (sret (S := BeaconState) tt) end); rewrite sbind_tt; reflexivity.
Qed.

(** ** example: both orders are observable *)
Example C80_toy : epoch_steps Deneb <> epoch_steps Electra /\ epoch_steps Phase0 <> epoch_steps Altair
  /\ is_ok (fst (process_epoch tiny Deneb (tiny_state 4 15))) = true
  /\ is_ok (fst (process_block tiny Deneb (tiny_block (tiny_state 4 13) 99) (tiny_state 4 13))) = false.
Proof. split; [discriminate|]. split; [discriminate|]. split; vm_compute; reflexivity. Qed.

Print Assumptions C80_epoch_order.
Print Assumptions C80_operations_order.
Print Assumptions C80_block_order.
