(** * Proofs about headers, RANDAO, eth1 votes, payloads and credential changes (proof file; no model definitions) *)
From Verif Require Import Base BaseLemmas Types Ctx Env Helpers HelpersAltair HelpersElectra Block Epoch Transition StLemmas
  SpecCommon SpecShuffle SpecHelpers SpecOps SpecBlock HelperProofs HelperProofs2 OpsProofs.
From Coq Require Import Sorted Permutation.

(** ** No operation rewrites the latest block header *)
Definition hk (s s' : BeaconState) : Prop := latest_block_header s' = latest_block_header s /\ slot s' = slot s.
Lemma hk_refl s : hk s s. Proof. split; reflexivity. Qed.
Lemma hk_trans a b c : hk a b -> hk b c -> hk a c. Proof. intros [] []; split; congruence. Qed.
Create HintDb hkdb.
Ltac hk1 :=
  match goal with
  | |- forall _, _ => intro
  | |- pres hk (sbind _ _) => apply (pres_bind hk hk_trans)
  | |- pres hk (rd _) => apply (pres_rd hk hk_refl)
  | |- pres hk (lift _) => apply (pres_lift hk hk_refl)
  | |- pres hk (sret _) => apply (pres_ret hk hk_refl)
  | |- pres hk (swhen _ _) => apply (pres_when hk hk_refl)
  | |- pres hk (sfor _ _) => apply (pres_for hk hk_refl hk_trans)
  | |- pres hk (sfold _ _ _) => apply (pres_fold hk hk_refl hk_trans)
  | |- pres hk (match ?x with _ => _ end) => destruct x
  | |- pres hk (md _) => apply pres_md; intro; (split; [reflexivity|reflexivity])
  | |- pres hk (md _) => apply pres_md; intro; cbv beta; match goal with |- hk _ (if ?c then _ else _) => destruct c; split; reflexivity end
  | |- pres hk _ => solve [eauto with hkdb]
  end.
Ltac hkt := repeat hk1.
Section Hk.
Variables (E : Env) (f : Fork).
Lemma hk_inc i d : pres hk (increase_balance E i d). Proof. unfold increase_balance. hkt. Qed.
Lemma hk_dec i d : pres hk (decrease_balance E i d). Proof. unfold decrease_balance. hkt. Qed.
Lemma hk_mod i g : pres hk (mod_validator i g). Proof. unfold mod_validator. hkt. Qed.
Hint Resolve hk_inc hk_dec hk_mod : hkdb.
Lemma hk_churn b : pres hk (compute_exit_epoch_and_update_churn E b). Proof. unfold compute_exit_epoch_and_update_churn. hkt. Qed.
Lemma hk_cchurn b : pres hk (compute_consolidation_epoch_and_update_churn E b). Proof. unfold compute_consolidation_epoch_and_update_churn. hkt. Qed.
Hint Resolve hk_churn hk_cchurn : hkdb.
Lemma hk_exit0 i : pres hk (initiate_validator_exit E i). Proof. unfold initiate_validator_exit. hkt. Qed.
Lemma hk_exit1 i : pres hk (initiate_validator_exit_electra E i). Proof. unfold initiate_validator_exit_electra. hkt. Qed.
Hint Resolve hk_exit0 hk_exit1 : hkdb.
Lemma hk_exit i : pres hk (initiate_exit E f i). Proof. unfold initiate_exit. hkt. Qed.
Hint Resolve hk_exit : hkdb.
Lemma hk_slash i w : pres hk (slash_validator E f i w). Proof. unfold slash_validator. hkt. Qed.
Hint Resolve hk_slash : hkdb.
Lemma hk_pslash op : pres hk (process_proposer_slashing E f op). Proof. unfold process_proposer_slashing. hkt. Qed.
Lemma hk_aslash op : pres hk (process_attester_slashing E f op). Proof. unfold process_attester_slashing. hkt. Qed.
Lemma hk_flag c fl i n fw : pres hk (attestation_flag_step E c fl i n fw).
Proof. unfold attestation_flag_step. hkt; apply pres_md; intro; destruct c; split; reflexivity. Qed.
Hint Resolve hk_flag : hkdb.
Lemma hk_att a : pres hk (process_attestation E f a).
Proof. unfold process_attestation, process_attestation_phase0, process_attestation_altair. hkt. Qed.
Lemma hk_add pk wc a : forall g, pres hk (add_validator_to_registry E g pk wc a). Proof. intros g. unfold add_validator_to_registry. hkt. Qed.
Lemma hk_excess i : pres hk (queue_excess_active_balance E i). Proof. unfold queue_excess_active_balance. hkt. Qed.
Hint Resolve hk_add hk_excess : hkdb.
Lemma hk_switch i : pres hk (switch_to_compounding_validator E i). Proof. unfold switch_to_compounding_validator. hkt. Qed.
Hint Resolve hk_switch : hkdb.
Lemma hk_apply pk wc a sg : pres hk (apply_deposit E f pk wc a sg).
Proof. unfold apply_deposit, apply_deposit_phase0, apply_deposit_electra. hkt. Qed.
Lemma hk_apply_el pk wc a sg : pres hk (apply_deposit_electra E pk wc a sg).
Proof. unfold apply_deposit_electra. hkt. Qed.
Hint Resolve hk_apply hk_apply_el : hkdb.
Lemma hk_deposit d : pres hk (process_deposit E f d). Proof. unfold process_deposit. hkt. Qed.
Lemma hk_receipt d : pres hk (process_deposit_receipt E d). Proof. unfold process_deposit_receipt. hkt. Qed.
Lemma hk_vexit op : pres hk (process_voluntary_exit E f op). Proof. unfold process_voluntary_exit. hkt. Qed.
Lemma hk_randao b : pres hk (process_randao E b). Proof. unfold process_randao. hkt. Qed.
Lemma hk_eth1 b : pres hk (process_eth1_data E b). Proof. unfold process_eth1_data. hkt. Qed.
Lemma hk_sync sa : pres hk (process_sync_aggregate E sa). Proof. unfold process_sync_aggregate, sync_step. hkt. Qed.
Lemma hk_payload b : pres hk (process_execution_payload E f b). Proof. unfold process_execution_payload. hkt. Qed.
Lemma hk_wd p : pres hk (process_withdrawals E f p). Proof. unfold process_withdrawals. hkt. Qed.
Lemma hk_bls op : pres hk (process_bls_to_execution_change E op). Proof. unfold process_bls_to_execution_change. hkt. Qed.
Lemma hk_wr op : pres hk (process_execution_layer_withdrawal_request E op). Proof. unfold process_execution_layer_withdrawal_request. hkt. Qed.
Lemma hk_cons op : pres hk (process_consolidation E op). Proof. unfold process_consolidation. hkt. Qed.
Hint Resolve hk_pslash hk_aslash hk_att hk_deposit hk_receipt hk_vexit hk_randao hk_eth1 hk_sync hk_payload hk_wd hk_bls hk_wr hk_cons : hkdb.
Lemma hk_ops b : pres hk (process_operations E f b). Proof. unfold process_operations. hkt. Qed.
End Hk.
Global Hint Resolve hk_ops hk_randao hk_eth1 hk_sync hk_payload hk_wd : hkdb.
Section Rest.
Variables (E : Env) (f : Fork).
Definition rest_of_block (b : BeaconBlock) : St BeaconState unit :=
  (match f with
   | Phase0 | Altair => sret tt
   | Bellatrix =>
     let* en := rd (fun s => Ok (is_execution_enabled E s (bk_body b))) in
     swhen en (process_execution_payload E f (bk_body b))
   | _ =>
     process_withdrawals E f (bb_execution_payload (bk_body b)) ;;
     process_execution_payload E f (bk_body b)
   end) ;;
  process_randao E (bk_body b) ;;
  process_eth1_data E (bk_body b) ;;
  process_operations E f (bk_body b) ;;
  swhen (fork_le Altair f) (process_sync_aggregate E (bb_sync_aggregate (bk_body b))).
Lemma process_block_split b s : process_block E f b s = sbind (process_block_header E f b) (fun _ => rest_of_block b) s.
Proof. reflexivity. Qed.
Lemma hk_rest b : pres hk (rest_of_block b). Proof. unfold rest_of_block. hkt. Qed.
End Rest.

Section WithEnv.
Variable E : Env.
Hypothesis Hctx : ctx_sane E.

(** ** Header *)
Lemma header_checks_iff f b s p r : get_beacon_proposer_index E s = Ok p -> htr E (OBody f (bk_body b)) = Some r ->
  forall hdr, (let! _ := require (bk_slot b =? slot s) EHdrStateSlotMismatch in
    let! _ := require (bh_slot (latest_block_header s) <? bk_slot b) EHdrOlderThanLatestBlockHeader in
    let! proposer := get_beacon_proposer_index E s in
    let! _ := require (bk_proposer_index b =? proposer) EHdrProposerIndexMismatch in
    let! expected := htr_r E (OHeader (latest_block_header s)) in
    let! _ := require (bytes_eqb (bk_parent_root b) expected) EHdrParentBlockRootMismatch in
    let! body_root := htr_r E (OBody f (bk_body b)) in
    Ok (mkHeader (bk_slot b) (bk_proposer_index b) (bk_parent_root b) zero32 body_root)) = Ok hdr <->
  header_acceptable E s b p /\ hdr = mkHeader (bk_slot b) (bk_proposer_index b) (bk_parent_root b) zero32 r.
Proof.
  intros Hp Hr hdr. unfold header_acceptable, htr_r. rewrite Hp, Hr. cbn [rbind ok_or]. split.
  - intros H. rinv H. apply N.eqb_eq in H0. apply N.ltb_lt in H1. apply N.eqb_eq in H2. apply bytes_eqb_true in H4. subst. auto 6.
  - intros ((A1 & A2 & A3 & A4) & ->). rewrite run_require by (apply N.eqb_eq; exact A1). rewrite run_require by (apply N.ltb_lt; exact A2).
    rewrite run_require by (apply N.eqb_eq; exact A3). rewrite A4. cbn [ok_or rbind].
    rewrite run_require by (apply bytes_eqb_true; reflexivity). reflexivity.
Qed.

(** ** RANDAO *)
Lemma mix_ok s : state_shape E s -> exists mix, nthN (randao_mixes s) (mix_position E s) = Some mix
  /\ get_randao_mix E s (epoch_of E s) = Ok mix.
Proof.
  intros (_ & _ & H & _). assert (Hn : EPOCHS_PER_HISTORICAL_VECTOR E <> 0) by (ctxs Hctx; lia).
  destruct (nthN_lt (randao_mixes s) (mix_position E s)) as [m Hm].
  { rewrite H. apply N.mod_lt. exact Hn. }
  exists m. split; [exact Hm|]. unfold get_randao_mix. rewrite umod_ok by exact Hn. cbn [rbind]. apply idx_ok. exact Hm.
Qed.
Lemma randao_run b s p v mix : get_beacon_proposer_index E s = Ok p -> nthN (validators s) p = Some v ->
  state_shape E s -> nthN (randao_mixes s) (mix_position E s) = Some mix ->
  (signed_by E s [2; 0; 0; 0] (epoch_of E s) (OU64 (epoch_of E s)) (v_public_key v) (bb_randao_reveal b) ->
     process_randao E b s = (Ok tt, set_randao_mixes (updN (randao_mixes s) (mix_position E s) (xorB mix (hash E (bb_randao_reveal b)))) s))
  /\ (~ signed_by E s [2; 0; 0; 0] (epoch_of E s) (OU64 (epoch_of E s)) (v_public_key v) (bb_randao_reveal b) ->
     rejected (process_randao E b) s).
Proof.
  intros Hp Hv Hsh Hm. destruct (mix_ok s Hsh) as (m & Hm1 & Hm2). assert (m = mix) by congruence. subst m.
  assert (Hn : EPOCHS_PER_HISTORICAL_VECTOR E <> 0) by (ctxs Hctx; lia).
  split.
  - intros Hs. apply (signed_by_iff E s DRandao) in Hs as (d & Hd & Hver). unfold process_randao.
    rewrite (run_rd _ _ _ (mix_position E s, xorB mix (hash E (bb_randao_reveal b)))); [reflexivity|].
    cbv beta. rewrite Hp. cbn [rbind]. rewrite (proj2 (idx_ok _ _ _) Hv). cbn [rbind].
    rewrite (current_epoch_ok E Hctx). cbn [rbind]. rewrite Hd. cbn [rbind]. rewrite Hver. cbn [map_err rbind]. rewrite Hm2. cbn [rbind].
    rewrite umod_ok by exact Hn. reflexivity.
  - intros Hs. unfold process_randao. apply guard_rejects. apply not_ok. intros a H. apply Hs.
    apply (signed_by_iff E s DRandao). rewrite Hp in H. cbn [rbind] in H. rewrite (proj2 (idx_ok _ _ _) Hv) in H. cbn [rbind] in H.
    rewrite (current_epoch_ok E Hctx) in H. cbn [rbind] in H. apply rbind_ok_inv in H as (d & Hd & H). apply rbind_ok_inv in H as ([] & Hver & H).
    apply map_err_ok in Hver. eauto.
Qed.
Lemma xorB_len a b : lenN a = lenN b -> lenN (xorB a b) = lenN a.
Proof.
  unfold xorB. rewrite lenN_map. unfold lenN. rewrite combine_length. lia.
Qed.
Lemma xorB_twice a b : lenN a = lenN b -> xorB (xorB a b) b = a.
Proof.
  revert b; induction a as [|x a IH]; intros [|y b] H; rewrite ?lenN_cons, ?lenN_nil in H; try lia; [reflexivity|].
  unfold xorB in *. cbn [combine map fst snd]. rewrite N.lxor_assoc, N.lxor_nilpotent, N.lxor_0_r. f_equal. apply IH. lia.
Qed.
Lemma xorB_nth a b i x y : nthN a i = Some x -> nthN b i = Some y -> nthN (xorB a b) i = Some (N.lxor x y).
Proof.
  revert b i; induction a as [|x0 a IH]; intros [|y0 b] i; try discriminate. unfold xorB in *. cbn [combine map fst snd]. rewrite !nthN_cons.
  destruct (i =? 0); [intros [= <-] [= <-]; reflexivity|apply IH].
Qed.

(** ** Eth1 votes *)
Lemma count_votes_ok d l : count_votes d l = votes_for d l.
Proof.
  unfold count_votes, votes_for. induction l as [|x l IH]; [reflexivity|]. cbn [filter count_occ]. unfold Eth1Data_eqb at 1.
  destruct (Eth1Data_eq_dec x d); [rewrite lenN_cons, IH; lia|exact IH].
Qed.
Lemma votes_for_le d l : votes_for d l <= lenN l.
Proof. unfold votes_for, lenN. pose proof (count_occ_bound Eth1Data_eq_dec d l). lia. Qed.
Lemma votes_for_app d l k : votes_for d (l ++ k) = votes_for d l + votes_for d k.
Proof. unfold votes_for. rewrite count_occ_app. lia. Qed.
Lemma votes_for_two x y l : x <> y -> votes_for x l + votes_for y l <= lenN l.
Proof.
  intros Hne. unfold votes_for, lenN. induction l as [|z l IH]; [cbn; lia|]. cbn [count_occ length].
  destruct (Eth1Data_eq_dec z x), (Eth1Data_eq_dec z y); try congruence; lia.
Qed.
Definition eth1_after (d : Eth1Data) (s : BeaconState) : BeaconState :=
  let votes := eth1_data_votes s ++ [d] in
  set_eth1_data (if voting_period E <? 2 * votes_for d votes then d else eth1_data s) (set_eth1_data_votes votes s).
Lemma eth1_run b s : lenN (eth1_data_votes s) < 2 ^ 62 -> voting_period E < U64 ->
  process_eth1_data E b s = (Ok tt, eth1_after (bb_eth1_data b) s).
Proof.
  intros Hl Hp. unfold process_eth1_data, eth1_after. rewrite run_md. cbv beta.
  set (votes := eth1_data_votes s ++ [bb_eth1_data b]). set (s1 := set_eth1_data_votes votes s).
  replace (eth1_data_votes s1) with votes by reflexivity.
  rewrite (run_rd _ _ _ (voting_period E <? 2 * votes_for (bb_eth1_data b) votes)).
  - destruct (voting_period E <? _); cbn [swhen]; [reflexivity|]. unfold sret. f_equal.
  - cbv beta. replace (eth1_data_votes s1) with votes by reflexivity. rewrite count_votes_ok.
    pose proof (votes_for_le (bb_eth1_data b) votes). assert (lenN votes = lenN (eth1_data_votes s) + 1) by (unfold votes; rewrite lenN_app; reflexivity).
    unfold mul. rewrite umul_ok by (pows; lia). cbn [rbind]. fold (voting_period E). rewrite umul_ok by exact Hp. cbn [rbind].
    rewrite (N.mul_comm (votes_for _ _)). reflexivity.
Qed.
Lemma eth1_run_all bs : forall s, lenN (eth1_data_votes s) + lenN bs < 2 ^ 62 -> voting_period E < U64 ->
  sfor bs (process_eth1_data E) s = (Ok tt, fold_left (fun s b => eth1_after (bb_eth1_data b) s) bs s).
Proof.
  induction bs as [|b bs IH]; intros s Hl Hp; [reflexivity|]. rewrite lenN_cons in Hl.
  rewrite sfor_cons, (run_bind _ _ _ _ _ (eth1_run b s ltac:(lia) Hp)). cbn [fold_left]. apply IH; [|exact Hp].
  unfold eth1_after. gs. rewrite lenN_app. change (lenN [bb_eth1_data b]) with 1. lia.
Qed.
Lemma eth1_fold bs : forall s, let s' := fold_left (fun s b => eth1_after (bb_eth1_data b) s) bs s in
  eth1_data_votes s' = eth1_data_votes s ++ map bb_eth1_data bs
  /\ (eth1_data s' = eth1_data s \/ has_majority E (eth1_data s') (eth1_data_votes s')).
Proof.
  induction bs as [|b bs IH] using rev_ind; intros s; cbv zeta; [cbn; rewrite app_nil_r; auto|].
  rewrite fold_left_app. cbn [fold_left]. destruct (IH s) as [H1 H2]. set (s1 := fold_left _ bs s) in *. cbv zeta in H1, H2.
  unfold eth1_after. gs. rewrite H1, map_app, app_assoc. split; [reflexivity|].
  destruct (N.ltb_spec (voting_period E) (2 * votes_for (bb_eth1_data b) ((eth1_data_votes s ++ map bb_eth1_data bs) ++ [bb_eth1_data b]))) as [Hlt|].
  - right. exact Hlt.
  - destruct H2 as [H2|H2]; [left; exact H2|]. right. unfold has_majority in *. rewrite H1 in H2. rewrite votes_for_app. lia.
Qed.
Lemma majority_unique x y l : lenN l <= voting_period E -> has_majority E x l -> has_majority E y l -> x = y.
Proof.
  unfold has_majority. intros Hl Hx Hy. destruct (Eth1Data_eq_dec x y) as [|Hne]; [assumption|].
  pose proof (votes_for_two x y l Hne). lia.
Qed.
Lemma majority_prefix x l k : has_majority E x l -> has_majority E x (l ++ k).
Proof. unfold has_majority. rewrite votes_for_app. lia. Qed.
Lemma majority_dec l : {x | has_majority E x l} + {forall x, ~ has_majority E x l}.
Proof.
  destruct (find (fun x => voting_period E <? 2 * votes_for x l) l) as [x|] eqn:Hf.
  - left. exists x. apply find_some in Hf as [_ Hf]. apply N.ltb_lt in Hf. exact Hf.
  - right. intros x Hx. unfold has_majority in Hx. assert (Hin : In x l).
    { apply (count_occ_In Eth1Data_eq_dec). unfold votes_for in Hx. lia. }
    apply (find_none _ _ Hf) in Hin. apply N.ltb_ge in Hin. lia.
Qed.

(** ** Payload *)
Lemma header_unset_iff s : is_merge_transition_complete E s = false <-> header_unset E (latest_execution_payload_header s).
Proof.
  unfold is_merge_transition_complete, header_unset. rewrite negb_false_iff. unfold ExecutionPayloadHeader_eqb. rewrite eqb_dec_true.
  unfold default_payload_header, repeatN, zero32. destruct (latest_execution_payload_header s); cbn. split.
  - intros [= -> -> -> -> -> -> -> -> -> -> -> -> -> -> -> -> -> -> ->]. auto 20.
  - intros (-> & -> & -> & -> & -> & -> & -> & -> & -> & -> & -> & -> & -> & -> & -> & -> & -> & -> & ->). reflexivity.
Qed.
Lemma payload_unset_iff p : ExecutionPayload_eqb p (default_payload E) = true <-> payload_unset E p.
Proof.
  unfold payload_unset, ExecutionPayload_eqb. destruct (ExecutionPayload_eq_dec p (default_payload E)) as [->|Hne].
  - split; [|reflexivity]. intros _. unfold default_payload, repeatN, zero32. cbn. auto 20.
  - split; [discriminate|]. intros H. exfalso. apply Hne. unfold default_payload, repeatN, zero32. destruct p; cbn in H.
    destruct H as (-> & -> & -> & -> & -> & -> & -> & -> & -> & -> & -> & -> & -> & -> & -> & -> & -> & -> & ->). reflexivity.
Qed.
Lemma from_deneb_iff f : fork_le Deneb f = true <-> from_deneb f.
Proof. unfold from_deneb. destruct f; cbn; split; try discriminate; try (intros [|]; discriminate); auto. Qed.
Lemma from_capella_iff f : fork_le Capella f = true <-> from_capella f.
Proof. unfold from_capella, from_deneb. destruct f; cbn; split; try discriminate; try (intros [|[|]]; discriminate); auto. Qed.
Lemma versioned_hash_spec c : lenN (hash E c) = 32 -> is_versioned_hash E c (kzg_commitment_to_versioned_hash E c).
Proof.
  intros H. unfold kzg_commitment_to_versioned_hash, is_versioned_hash. destruct (hash E c) as [|x l] eqn:Hh; [discriminate|].
  cbn [skipn]. rewrite nthN_cons. split; [reflexivity|]. split; [rewrite !lenN_cons; reflexivity|]. intros i Hi. rewrite !nthN_cons.
  destruct (N.eqb_spec i 0); [lia|reflexivity].
Qed.
Lemma versioned_hash_fun c x y : is_versioned_hash E c x -> is_versioned_hash E c y -> x = y.
Proof.
  intros (A1 & A2 & A3) (B1 & B2 & B3). apply nthN_ext. intros i. destruct (N.eq_dec i 0) as [->|Hi]; [congruence|].
  rewrite A3, B3 by lia. reflexivity.
Qed.
Lemma versioned_list l : hash_wf (hash E) -> Forall2 (is_versioned_hash E) l (map (kzg_commitment_to_versioned_hash E) l).
Proof. intros H. induction l; cbn [map]; constructor; [apply versioned_hash_spec; unfold lenN; rewrite (proj1 (H _)); reflexivity|assumption]. Qed.
Lemma versioned_list_fun l k : hash_wf (hash E) -> Forall2 (is_versioned_hash E) l k -> k = map (kzg_commitment_to_versioned_hash E) l.
Proof.
  intros H HF. induction HF as [|c v l k H1 H2 IH]; [reflexivity|]. cbn [map]. f_equal; [|exact IH].
  eapply versioned_hash_fun; [exact H1|]. apply versioned_hash_spec. unfold lenN. rewrite (proj1 (H _)). reflexivity.
Qed.
Lemma engine_iff f s b : hash_wf (hash E) -> engine_ok E (payload_request E f b s) = true <-> engine_accepts E f s b.
Proof.
  intros Hh. unfold payload_request, engine_accepts. destruct (fork_le Deneb f) eqn:Hf.
  - apply from_deneb_iff in Hf. split.
    + intros H. exists (map (kzg_commitment_to_versioned_hash E) (bb_blob_kzg_commitments b)), (bh_parent_root (latest_block_header s)).
      split; [intros _; split; [apply versioned_list; exact Hh|reflexivity]|]. split; [contradiction|exact H].
    + intros (hs & pr & H1 & _ & H2). destruct (H1 Hf) as [H3 ->]. apply versioned_list_fun in H3; [|exact Hh]. subst hs. exact H2.
  - assert (Hnf : ~ from_deneb f) by (rewrite <- from_deneb_iff; congruence). split.
    + intros H. exists [], []. split; [contradiction|]. split; [auto|exact H].
    + intros (hs & pr & _ & H1 & H2). destruct (H1 Hnf) as [-> ->]. exact H2.
Qed.
Lemma fork_num_bellatrix f : f <> Phase0 -> f <> Altair -> (fork_num f <=? fork_num Bellatrix) = true <-> ~ from_capella f.
Proof. intros H1 H2. rewrite <- from_capella_iff. destruct f; try contradiction; vm_compute; split; congruence. Qed.
Lemma payload_checks_iff f b s : hash_wf (hash E) -> state_shape E s -> f <> Phase0 -> f <> Altair ->
  genesis_time s + slot s * SECONDS_PER_SLOT E < U64 ->
  payload_checks E f b s = Ok tt <-> payload_acceptable E f s b.
Proof.
  intros Hh Hsh Hf1 Hf2 Ht. destruct (mix_ok s Hsh) as (mix & Hm1 & Hm2). unfold payload_checks, payload_acceptable.
  assert (Htime : compute_timestamp_at_slot E s (slot s) = Ok (genesis_time s + slot s * SECONDS_PER_SLOT E)).
  { unfold compute_timestamp_at_slot. replace (csub (slot s) GENESIS_SLOT) with (Some (slot s)) by (symmetry; apply csub_some; unfold GENESIS_SLOT; lia).
    cbn [ok_or rbind]. unfold mul. rewrite umul_ok by lia. cbn [rbind]. unfold add. apply uadd_ok. exact Ht. }
  rewrite (current_epoch_ok E Hctx). cbn [rbind]. rewrite Hm2, Htime. cbn [rbind].
  assert (Hpar : ((fork_num f <=? fork_num Bellatrix) && negb (is_merge_transition_complete E s)
                     || bytes_eqb (ep_parent_hash (bb_execution_payload b)) (eph_block_hash (latest_execution_payload_header s))) = true
     <-> (from_capella f \/ ~ header_unset E (latest_execution_payload_header s) ->
           ep_parent_hash (bb_execution_payload b) = eph_block_hash (latest_execution_payload_header s))).
  { rewrite orb_true_iff, andb_true_iff, negb_true_iff, bytes_eqb_true, header_unset_iff, (fork_num_bellatrix f Hf1 Hf2).
    destruct (is_merge_transition_complete E s) eqn:Hmc.
    - assert (Hnu : ~ header_unset E (latest_execution_payload_header s)) by (rewrite <- header_unset_iff; congruence).
      split; [intros [[_ Hu]|H]; [contradiction|auto]|]. intros H. right. apply H. right. exact Hnu.
    - assert (Hu : header_unset E (latest_execution_payload_header s)) by (apply header_unset_iff; exact Hmc).
      destruct (fork_le Capella f) eqn:Hfc.
      + apply from_capella_iff in Hfc. split; [intros [[Hn _]|H]; [contradiction|auto]|]. intros H. right. apply H. left; exact Hfc.
      + assert (Hnc : ~ from_capella f) by (rewrite <- from_capella_iff; congruence). split; [intros _ [H|H]; contradiction|]. intros _. left. split; assumption. }
  assert (Hblob : (negb (fork_le Deneb f) || (lenN (bb_blob_kzg_commitments b) <=? MAX_BLOBS_PER_BLOCK E)) = true
     <-> (from_deneb f -> lenN (bb_blob_kzg_commitments b) <= MAX_BLOBS_PER_BLOCK E)).
  { rewrite <- from_deneb_iff. destruct (fork_le Deneb f); cbn [negb orb]; rewrite ?N.leb_le; split; auto. discriminate. }
  split.
  - intros H. rinv H. pose proof (proj1 Hpar H0) as P0. apply bytes_eqb_true in H1. apply N.eqb_eq in H2. pose proof (proj1 Hblob H3) as P3. apply engine_iff in H; [|exact Hh].
    split; [exact P0|]. split; [congruence|]. auto.
  - intros (A1 & A2 & A3 & A4 & A5). rewrite run_require by (apply Hpar; exact A1).
    rewrite run_require by (apply bytes_eqb_true; congruence). rewrite run_require by (apply N.eqb_eq; exact A3).
    rewrite run_require by (apply Hblob; exact A4). apply require_ok. apply engine_iff; assumption.
Qed.
Lemma payload_header_iff f p h : payload_to_header E f p = Ok h -> header_of_payload E f p h.
Proof.
  unfold payload_to_header, header_of_payload, htr_r. rewrite <- from_capella_iff, <- from_deneb_iff. intros H.
  apply rbind_ok_inv in H as (tr & Htr & H). apply ok_or_ok in Htr. apply rbind_ok_inv in H as (wr & Hwr & H).
  apply rbind_ok_inv in H as (dr & Hdr & H). apply rbind_ok_inv in H as (rr & Hrr & H). apply Ok_inj in H. subst h. cbn.
  repeat (split; [reflexivity|]). split; [exact Htr|]. split; [intros Hc; rewrite Hc in Hwr; apply ok_or_ok in Hwr; exact Hwr|].
  split; [intros Hc; rewrite Hc; auto|]. intros ->. split; [apply ok_or_ok in Hdr; exact Hdr|apply ok_or_ok in Hrr; exact Hrr].
Qed.
Lemma payload_header_exists f p : payload_merkleizable E f p -> exists h, payload_to_header E f p = Ok h.
Proof.
  unfold payload_merkleizable, payload_to_header, htr_r. rewrite <- from_capella_iff. intros (H1 & H2 & H3).
  destruct (htr E (OTransactions (ep_transactions p))) as [tr|]; [|contradiction]. cbn [ok_or rbind].
  destruct (fork_le Capella f) eqn:Hc.
  - specialize (H2 eq_refl). destruct (htr E (OWithdrawals (ep_withdrawals p))) as [wr|]; [|contradiction]. cbn [ok_or rbind].
    destruct (fork_le Electra f) eqn:He; [|cbn [rbind]; eauto].
    assert (f = Electra) by (destruct f; try discriminate; reflexivity). destruct (H3 H) as [H4 H5].
    destruct (htr E (ODepositReceipts (ep_deposit_receipts p))) as [dr|]; [|contradiction].
    destruct (htr E (OWithdrawalRequests (ep_withdrawal_requests p))) as [rr|]; [|contradiction]. cbn [ok_or rbind]. eauto.
  - cbn [rbind]. destruct (fork_le Electra f) eqn:He; [destruct f; discriminate|]. cbn [rbind]. eauto.
Qed.

(** ** BLS to execution change *)
Lemma cred_prefix_nth v k : k <> 255 -> cred_prefix v = k <-> nthN (v_withdrawal_credentials v) 0 = Some k.
Proof. intros Hk. unfold cred_prefix. destruct (v_withdrawal_credentials v) as [|b t]; [cbn; split; congruence|]. rewrite nthN_cons, N.eqb_refl. cbn. split; congruence. Qed.
Lemma bls_checks_iff op s i : bls_change_checks E op s = Ok i <->
  (exists v, bls_change_valid E s op v) /\ i = bc_validator_index (sbc_message op).
Proof.
  unfold bls_change_checks, bls_change_valid. split.
  - intros H. rinv H. apply N.ltb_lt in H0. apply N.eqb_eq in H2. apply bytes_eqb_true in H3. destruct x4.
    split; [|congruence]. eexists. split; [exact H1|]. split; [apply cred_prefix_nth in H2; [exact H2|discriminate]|]. split; [exact H3|].
    apply (compute_domain_ok E DBlsToExecutionChange (GENESIS_FORK_VERSION E)) in H4. apply verify_signed_data_ok in H5 as (root & R1 & R2).
    eauto 6.
  - intros ((v & A1 & A2 & A3 & d & root & A4 & A5 & A6) & ->).
    rewrite run_require by (apply N.ltb_lt; eapply nthN_some; eauto). rewrite (proj2 (idx_ok _ _ _) A1). cbn [rbind].
    rewrite run_require by (apply N.eqb_eq, cred_prefix_nth; [discriminate|exact A2]). rewrite run_require by (apply bytes_eqb_true; exact A3).
    rewrite (run_r _ _ d) by (apply (compute_domain_ok E DBlsToExecutionChange (GENESIS_FORK_VERSION E)); exact A4).
    rewrite (run_r _ _ tt) by (apply verify_signed_data_ok; eauto). reflexivity.
Qed.
End WithEnv.
