(** * Genesis (C70) *)
From Coq Require Import Permutation.
From Verif Require Import Base BaseLemmas Types Ctx Presets Env Helpers HelpersAltair HelpersElectra Block Epoch Transition Upgrade Genesis StLemmas
  SpecCommon SpecShuffle SpecHelpers SpecElectra SpecOps SpecBlock SpecAtt SpecEpoch SpecFlow SpecGenesis
  HelperProofs HelperProofs2 OpsProofs FlowProofs PeriodicProofs GenesisProofs ToyCtx Toy Toy2 Toy3 PropsFlow.

Section Steps.
Variable E : Env.
Variable f : Fork.
Lemma laid_base gt bh n body ph : genesis_base E gt f bh n body ph = laid f (genesis_base E gt f bh n body ph) [] [] (mkEth1 zero32 n bh) 0.
Proof. destruct f; lazy; reflexivity. Qed.
Lemma tail_fields base vs r e1 k root c : let t := set_genesis_validators_root root (laid f base vs r e1 k) in let u := set_next_sync_committee c (set_current_sync_committee c t) in
  (validators t = vs /\ slot t = slot base /\ randao_mixes t = randao_mixes base /\ genesis_validators_root t = root)
  /\ (validators u = vs /\ slot u = slot base /\ randao_mixes u = randao_mixes base /\ genesis_validators_root u = root)
  /\ (balances t = map en_balance r /\ previous_epoch_participation t = zeros f r /\ current_epoch_participation t = zeros f r /\ inactivity_scores t = zeros f r /\ eth1_data t = e1)
  /\ (balances u = map en_balance r /\ previous_epoch_participation u = zeros f r /\ current_epoch_participation u = zeros f r /\ inactivity_scores u = zeros f r /\ eth1_data u = e1)
  /\ (current_sync_committee u = c /\ next_sync_committee u = c).
Proof. cbv zeta. destruct base. repeat (match goal with |- _ /\ _ => split end); lazy; reflexivity. Qed.
Lemma zeros_map r : f <> Phase0 -> zeros f r = map (fun _ => 0) r.
Proof.
  intros Hf. assert (H : repeatN 0 (lenN r) = map (fun _ => 0) r). { induction r as [|e r IH]; [reflexivity|]. unfold repeatN, lenN in *. cbn [length map]. rewrite Nnat.Nat2N.id in *. cbn [repeat]. rewrite IH. reflexivity. }
  unfold zeros. destruct f; try exact H. contradiction.
Qed.
Lemma frame_base bh ts n body ph vs r root rootd c : let t := set_genesis_validators_root root (laid f (genesis_base E (ts + GENESIS_DELAY E) f bh n body ph) vs r (mkEth1 rootd n bh) n) in
  genesis_frame E f bh ts n t /\ genesis_frame E f bh ts n (set_next_sync_committee c (set_current_sync_committee c t)).
Proof.
  cbv zeta. unfold genesis_frame. split.
  - repeat (match goal with |- _ /\ _ => split end); try (exists body); lazy; reflexivity.
  - repeat (match goal with |- _ /\ _ => split end); try (exists body); lazy; reflexivity.
Qed.
End Steps.

(** ** the state built from a list of deposits: rejected if one deposit is not proven, otherwise exactly the registry of the deposits *)
Theorem C70_genesis : forall (E : Env) (f : Fork) (block_hash : bytes) (timestamp : N) (ds : list Deposit) (h : option ExecutionPayloadHeader),
  ctx_sane E -> f <> Electra -> (exists dom, deposit_domain E dom) -> lenN ds < 2 ^ 64 -> sumN (map dd_amount (map dep_data ds)) < 2 ^ 64 ->
  timestamp + GENESIS_DELAY E < 2 ^ 64 ->
  ((exists i d, nthN ds i = Some d /\ ~ genesis_proven E ds i d) -> is_ok (initialize_beacon_state_from_eth1 E f block_hash timestamp ds h) = false)
  /\ forall s, initialize_beacon_state_from_eth1 E f block_hash timestamp ds h = Ok s ->
     (forall i d, nthN ds i = Some d -> genesis_proven E ds i d)
     /\ genesis_frame E f block_hash timestamp (lenN ds) s
     /\ (ds <> [] -> htr E (ODepositDataList (map dep_data ds)) = Some (e1_deposit_root (eth1_data s)))
     /\ htr E (OValidators (validators s)) = Some (genesis_validators_root s)
     /\ (exists r, registry E (map dep_data ds) r /\ genesis_registry E f r s)
     /\ (f <> Phase0 -> current_sync_committee s = next_sync_committee s /\ get_next_sync_committee E s = Ok (next_sync_committee s)).
Proof.
  intros E f bh ts ds h Hc Hf Hd Hlen Hsum Hts. unfold initialize_beacon_state_from_eth1. unfold htr_r at 1 2.
  destruct (htr E (OBody f (default_body E))) as [body|] eqn:Hbody; [|split; [reflexivity|discriminate]]. cbn [ok_or rbind].
  unfold add. rewrite uadd_ok by exact Hts. cbn [rbind]. set (ph := match h with Some x => x | None => default_payload_header E end).
  set (base := genesis_base E (ts + GENESIS_DELAY E) f bh (lenN ds) body ph).
  assert (Hbase : base = laid f base [] [] (mkEth1 zero32 (lenN ds) bh) 0) by apply laid_base.
  destruct (deposits_run E Hc Hd f Hf base ds [] [] [] (mkEth1 zero32 (lenN ds) bh) 0) as [D1 D2]; [constructor|constructor|reflexivity|exact Hlen|exact Hsum|].
  cbn [app map] in D1, D2. rewrite <- Hbase in D1, D2.
  assert (Hfst : forall (m : res unit * BeaconState), (let (r, s) := m in let! _ := r in Ok s) = (let! _ := fst m in Ok (snd m))) by (intros [r s]; reflexivity).
  rewrite Hfst. unfold genesis_steps. split.
  { intros (i & d & Hi & Hp). assert (Hno : is_ok (fst (genesis_deposits E f ds [] base)) = false) by (apply D1; exists i, d; split; [lia|auto]).
    unfold sbind at 1. destruct (genesis_deposits E f ds [] base) as [[]]; cbn [fst] in Hno |- *; try reflexivity. discriminate Hno. }
  intros s H.
  assert (Hall : forall i d, nthN ds i = Some d -> genesis_proven E ds i d).
  { intros i d Hi. assert (Hdec : genesis_proven E ds i d \/ ~ genesis_proven E ds i d).
    { unfold genesis_proven. destruct (htr E (ODepositData (dep_data d))) as [leaf|]; [|right; intros (l & r & X & _); discriminate X].
      destruct (htr E (ODepositDataList (firstN (i + 1) (map dep_data ds)))) as [root|]; [|right; intros (l & r & _ & X & _); discriminate X].
      destruct (merkle_branch_ok E leaf (dep_proof d) 33 i root) eqn:Hm; [left; exists leaf, root; auto|right; intros (l & r & [= <-] & [= <-] & X); congruence]. }
    destruct Hdec as [Hy|Hn]; [exact Hy|exfalso]. assert (Hno : is_ok (fst (genesis_deposits E f ds [] base)) = false) by (apply D1; exists i, d; split; [lia|auto]).
    unfold sbind at 1 in H. destruct (genesis_deposits E f ds [] base) as [[]]; cbn [fst rbind] in Hno, H; discriminate. }
  split; [exact Hall|]. destruct D2 as (vs & r & root & R1 & R2 & R3 & R4 & R5); [intros; apply Hall; assumption|]. cbn [e1_deposit_count e1_block_hash e1_deposit_root] in R1, R4.
  set (e1 := mkEth1 root (lenN ds) bh) in *.
  rewrite (run_bind _ _ _ _ _ R1) in H. replace (fork_le Electra f) with false in H by (destruct f; try reflexivity; contradiction).
  rewrite (run_bind (swhen false (genesis_drain_pending E)) _ _ tt (laid f base vs r e1 (lenN ds))) in H by reflexivity.
  rewrite (run_rd _ _ _ (lenN vs)) in H by (rewrite laid_validators; reflexivity).
  rewrite (run_bind _ _ _ _ _ (activation_run E Hc f base vs r e1 (lenN ds) R3)) in H.
  set (gv := map (genesis_validator E) r) in *. 
  destruct (htr E (OValidators gv)) as [vroot|] eqn:Hv; [|unfold sbind at 1, rd at 1, htr_r at 1 in H; rewrite laid_validators, Hv in H; discriminate H].
  rewrite (run_rd _ _ _ vroot) in H by (rewrite laid_validators; unfold htr_r; rewrite Hv; reflexivity). rewrite run_md in H.
  set (t := set_genesis_validators_root vroot (laid f base gv r e1 (lenN ds))) in *.
  assert (Hp : f = Phase0 \/ f <> Phase0) by (clear; destruct f; (left; reflexivity) || (right; discriminate)). destruct Hp as [Hp|Hp].
  - replace (fork_le Altair f) with false in H by (rewrite Hp; reflexivity). rewrite swhen_false in H. cbn [sret fst snd rbind] in H. injection H as <-.
    destruct (tail_fields f base gv r e1 (lenN ds) vroot (default_sync_committee E)) as ((T1 & T2 & T3 & T4) & _ & (T5 & T6 & T7 & T8 & T9) & _). fold t in T1, T2, T3, T4, T5, T6, T7, T8, T9.
    split; [exact (proj1 (frame_base E f bh ts (lenN ds) body ph gv r vroot root (default_sync_committee E)))|]. rewrite T9. split; [exact R5|]. rewrite T1, T4. split; [exact Hv|]. split; [|contradiction].
    exists r. split; [exact R2|]. split; [exact T1|]. split; [exact T5|contradiction].
  - replace (fork_le Altair f) with true in H by (destruct f; try reflexivity; contradiction). rewrite swhen_true in H.
    destruct (get_next_sync_committee E t) as [c| | |] eqn:Hcm; [|unfold sbind at 1, rd at 1 in H; rewrite Hcm in H; discriminate H..].
    rewrite (run_rd _ _ _ c) in H by exact Hcm. unfold md in H. cbn [fst snd rbind] in H. injection H as <-.
    destruct (tail_fields f base gv r e1 (lenN ds) vroot c) as ((T1 & T2 & T3 & T4) & (U1 & U2 & U3 & U4) & _ & (U5 & U6 & U7 & U8 & U9) & U10 & U11). fold t in T1, T2, T3, T4, U1, U2, U3, U4, U5, U6, U7, U8, U9, U10, U11.
    split; [exact (proj2 (frame_base E f bh ts (lenN ds) body ph gv r vroot root c))|]. rewrite U9. split; [exact R5|]. rewrite U1, U4. split; [exact Hv|]. split.
    + exists r. split; [exact R2|]. split; [exact U1|]. split; [exact U5|]. intros _. rewrite U6, U7, U8, (zeros_map f r Hp). auto.
    + intros _. rewrite U10, U11. split; [reflexivity|]. rewrite <- Hcm. apply next_committee_ext; [rewrite U2, T2|rewrite U3, T3|rewrite U1, T1]; reflexivity.
Qed.

(** ** every key has one validator, and the registry is determined by the deposits *)
Theorem C70_one_per_key : forall (E : Env) (ds : list DepositData) (r : list Entry), registry E ds r -> NoDup (map en_key r).
Proof.
  intros E ds r H. induction H as [|ds d r1 e r2 _ IH _ _|ds d r _ IH Hn _|ds d r _ IH _ _].
  - constructor.
  - rewrite map_app in *. exact IH.
  - rewrite map_app. cbn [map en_key]. apply Permutation_NoDup with (dd_public_key d :: map en_key r); [apply Permutation_cons_append|]. constructor; assumption.
  - exact IH.
Qed.
Theorem C70_registry_unique : forall (E : Env) (ds : list DepositData) (r r' : list Entry), registry E ds r -> registry E ds r' -> r = r'.
Proof.
  intros E ds r r' H. revert r'. induction H as [|ds d r1 e r2 Hr IH Hk Hn|ds d r Hr IH Hn Hs|ds d r Hr IH Hn Hs]; intros r' H'.
  - inversion H' as [|ds0 d0 ? ? ? ? ? ? Hd|ds0 d0 ? ? ? ? Hd|ds0 d0 ? ? ? ? Hd]; [reflexivity|destruct ds0; discriminate..].
  - inversion H' as [Hd|ds0 d0 q1 e0 q2 G1 G2 G3 Hd|ds0 d0 q G1 G2 G3 Hd|ds0 d0 q G1 G2 G3 Hd]; [destruct ds; discriminate|..]; apply app_inj_tail in Hd as [-> ->].
    + specialize (IH _ G1). assert (Hs : r1 = q1 /\ e = e0 /\ r2 = q2).
      { clear - IH Hk Hn G2 G3. revert q1 G3 IH. induction r1 as [|x r1 IHr]; intros [|y q1] G3 IH; cbn [app] in IH.
        - injection IH as -> ->. auto.
        - injection IH as -> IH. exfalso. apply G3. left. exact Hk.
        - injection IH as -> IH. exfalso. apply Hn. left. exact G2.
        - injection IH as -> IH. destruct (IHr (fun X => Hn (or_intror X)) q1 (fun X => G3 (or_intror X)) IH) as (-> & -> & ->). auto. }
      destruct Hs as (-> & -> & ->). reflexivity.
    + exfalso. apply G2. rewrite <- (IH _ G1), map_app, <- Hk. apply in_or_app. right. left. reflexivity.
    + exfalso. apply G2. rewrite <- (IH _ G1), map_app, <- Hk. apply in_or_app. right. left. reflexivity.
  - inversion H' as [Hd|ds0 d0 q1 e0 q2 G1 G2 G3 Hd|ds0 d0 q G1 G2 G3 Hd|ds0 d0 q G1 G2 G3 Hd]; [destruct ds; discriminate|..]; apply app_inj_tail in Hd as [-> ->].
    + exfalso. apply Hn. rewrite (IH _ G1), map_app, <- G2. apply in_or_app. right. left. reflexivity.
    + rewrite (IH _ G1). reflexivity.
    + contradiction.
  - inversion H' as [Hd|ds0 d0 q1 e0 q2 G1 G2 G3 Hd|ds0 d0 q G1 G2 G3 Hd|ds0 d0 q G1 G2 G3 Hd]; [destruct ds; discriminate|..]; apply app_inj_tail in Hd as [-> ->].
    + exfalso. apply Hn. rewrite (IH _ G1), map_app, <- G2. apply in_or_app. right. left. reflexivity.
    + contradiction.
    + apply IH. exact G1.
Qed.

(** ** a state is a valid genesis state exactly when it is late enough and has enough validators with the maximum effective balance *)
Theorem C70_valid_genesis : forall (E : Env) (f : Fork) (r : list Entry) (s : BeaconState), genesis_registry E f r s ->
  (is_valid_genesis_state E s = true
   <-> MIN_GENESIS_TIME E <= genesis_time s
       /\ MIN_GENESIS_ACTIVE_VALIDATOR_COUNT E <= lenN (filter (fun e => genesis_effective E (en_balance e) =? MAX_EFFECTIVE_BALANCE E) r)).
Proof.
  intros E f r s (Hv & _). unfold is_valid_genesis_state.
  assert (Hlen : lenN (get_active_validator_indices s GENESIS_EPOCH) = lenN (filter (fun e => genesis_effective E (en_balance e) =? MAX_EFFECTIVE_BALANCE E) r)).
  { unfold get_active_validator_indices. rewrite Hv. clear Hv. generalize 0 at 1. induction r as [|e r IH]; intros i; [reflexivity|].
    cbn [map active_from filter]. assert (Ha : is_active_validator (genesis_validator E e) GENESIS_EPOCH = (genesis_effective E (en_balance e) =? MAX_EFFECTIVE_BALANCE E)).
    { unfold genesis_validator. cbv zeta. destruct (genesis_effective E (en_balance e) =? MAX_EFFECTIVE_BALANCE E); reflexivity. }
    rewrite Ha. destruct (genesis_effective E (en_balance e) =? MAX_EFFECTIVE_BALANCE E); rewrite ?lenN_cons, IH; reflexivity. }
  rewrite Hlen. destruct (N.ltb_spec (genesis_time s) (MIN_GENESIS_TIME E)) as [H|H]; [split; [discriminate|lia]|]. rewrite N.leb_le. split; [auto|tauto].
Qed.

(** ** in phase 0 the construction succeeds whenever every deposit is proven *)
Theorem C70_phase0_succeeds : forall (E : Env) (block_hash : bytes) (timestamp : N) (ds : list Deposit) (h : option ExecutionPayloadHeader),
  ctx_sane E -> (exists dom, deposit_domain E dom) -> lenN ds < 2 ^ 64 -> sumN (map dd_amount (map dep_data ds)) < 2 ^ 64 ->
  timestamp + GENESIS_DELAY E < 2 ^ 64 -> (forall l, htr E (OValidators l) <> None) -> (forall b, htr E (OBody Phase0 b) <> None) ->
  (forall i d, nthN ds i = Some d -> genesis_proven E ds i d) ->
  exists s, initialize_beacon_state_from_eth1 E Phase0 block_hash timestamp ds h = Ok s.
Proof.
  intros E bh ts ds h Hc Hd Hlen Hsum Hts Hhv Hhb Hall. unfold initialize_beacon_state_from_eth1. unfold htr_r at 1.
  destruct (htr E (OBody Phase0 (default_body E))) as [body|] eqn:Hbody; [|destruct (Hhb _ Hbody)]. cbn [ok_or rbind].
  unfold add. rewrite uadd_ok by exact Hts. cbn [rbind]. set (ph := match h with Some x => x | None => default_payload_header E end).
  set (base := genesis_base E (ts + GENESIS_DELAY E) Phase0 bh (lenN ds) body ph).
  assert (Hbase : base = laid Phase0 base [] [] (mkEth1 zero32 (lenN ds) bh) 0) by apply laid_base.
  assert (Hf : Phase0 <> Electra) by discriminate.
  destruct (deposits_run E Hc Hd Phase0 Hf base ds [] [] [] (mkEth1 zero32 (lenN ds) bh) 0) as [_ D2]; [constructor|constructor|reflexivity|exact Hlen|exact Hsum|].
  cbn [app map] in D2. rewrite <- Hbase in D2. destruct D2 as (vs & r & root & R1 & R2 & R3 & _); [intros; apply Hall; assumption|].
  unfold genesis_steps. rewrite (run_bind _ _ _ _ _ R1). change (fork_le Electra Phase0) with false. change (fork_le Altair Phase0) with false.
  cbn [e1_deposit_count e1_block_hash]. set (e1 := mkEth1 root (lenN ds) bh).
  rewrite (run_bind (swhen false (genesis_drain_pending E)) _ _ tt (laid Phase0 base vs r e1 (lenN ds))) by reflexivity.
  rewrite (run_rd _ _ _ (lenN vs)) by (rewrite laid_validators; reflexivity).
  rewrite (run_bind _ _ _ _ _ (activation_run E Hc Phase0 base vs r e1 (lenN ds) R3)).
  destruct (htr E (OValidators (map (genesis_validator E) r))) as [vroot|] eqn:Hv; [|destruct (Hhv _ Hv)].
  rewrite (run_rd _ _ _ vroot) by (rewrite laid_validators; unfold htr_r; rewrite Hv; reflexivity). rewrite run_md, swhen_false. eexists. reflexivity.
Qed.

(** ** what the claim misses in electra *)
Definition start_kept (s s' : BeaconState) : Prop := deposit_receipts_start_index s' = deposit_receipts_start_index s.
Lemma sk_refl s : start_kept s s. Proof. reflexivity. Qed.
Lemma sk_trans a b c : start_kept a b -> start_kept b c -> start_kept a c. Proof. unfold start_kept. congruence. Qed.
Ltac sk1 := match goal with
  | |- forall _, _ => intro
  | |- pres start_kept (sbind _ _) => apply (pres_bind start_kept sk_trans)
  | |- pres start_kept (rd _) => apply (pres_rd start_kept sk_refl)
  | |- pres start_kept (lift _) => apply (pres_lift start_kept sk_refl)
  | |- pres start_kept (sret _) => apply (pres_ret start_kept sk_refl)
  | |- pres start_kept (swhen _ _) => apply (pres_when start_kept sk_refl)
  | |- pres start_kept (sfor _ _) => apply (pres_for start_kept sk_refl sk_trans)
  | |- pres start_kept (if ?x then _ else _) => destruct x
  | |- pres start_kept (match ?x with _ => _ end) => destruct x
  | |- pres start_kept (md _) => apply pres_md; intro; let s := fresh in (match goal with |- start_kept ?a _ => destruct a end); lazy; reflexivity
  end.
Ltac sk := repeat sk1.
Lemma genesis_start E ds : pres start_kept (genesis_steps E Electra ds).
Proof.
  assert (Hd : forall d, pres start_kept (process_deposit E Electra d)).
  { intros d. unfold process_deposit, apply_deposit, apply_deposit_electra, add_validator_to_registry, switch_to_compounding_validator, queue_excess_active_balance, mod_validator. cbv zeta. sk. }
  assert (Hg : forall l, pres start_kept (genesis_deposits E Electra ds l)).
  { induction ds as [|d ds IH]; intros l; cbn [genesis_deposits]; [sk|]. cbv zeta. sk; try apply Hd. apply IH. }
  unfold genesis_steps, genesis_drain_pending, genesis_activation_step, mod_validator, increase_balance. cbv zeta. sk. apply Hg.
Qed.
(** the deposit receipts start index is 0, not the "unset" value the upgrade uses, so no state built this way ever records the first receipt
    (block_processing.rs 972) and the eth1 deposits still outstanding can never be processed *)
Theorem C70_electra_start_index_refuted : forall (E : Env) (block_hash : bytes) (timestamp : N) (ds : list Deposit) (h : option ExecutionPayloadHeader) (s : BeaconState),
  initialize_beacon_state_from_eth1 E Electra block_hash timestamp ds h = Ok s ->
  deposit_receipts_start_index s = 0 /\ deposit_receipts_start_index s <> 2 ^ 64 - 1.
Proof.
  intros E bh ts ds h s H. unfold initialize_beacon_state_from_eth1 in H. rinv H. destruct (genesis_steps E Electra ds _) as [r t] eqn:Hs in H.
  rinv H. subst t. match type of Hs with genesis_steps _ _ _ ?b = _ => pose proof (genesis_start E ds b) as Hk end. rewrite Hs in Hk. unfold start_kept in Hk. cbn [snd] in Hk.
  assert (Hz : deposit_receipts_start_index s = 0) by exact Hk. rewrite Hz. split; [reflexivity|discriminate].
Qed.
(** and one deposit without a valid signature makes the whole construction fail, where it should be ignored *)
Theorem C70_electra_unsigned_refuted : forall (E : Env) (block_hash : bytes) (timestamp : N) (ds : list Deposit) (h : option ExecutionPayloadHeader) (d : Deposit),
  (exists dom, deposit_domain E dom) -> In d ds ->
  ~ deposit_signed E (dd_public_key (dep_data d)) (dd_withdrawal_credentials (dep_data d)) (dd_amount (dep_data d)) (dd_signature (dep_data d)) ->
  is_ok (initialize_beacon_state_from_eth1 E Electra block_hash timestamp ds h) = false.
Proof.
  intros E bh ts ds h d [dom Hd] Hin Hns.
  assert (Hsig : is_ok (is_valid_deposit_signature E (dd_public_key (dep_data d)) (dd_withdrawal_credentials (dep_data d)) (dd_amount (dep_data d)) (dd_signature (dep_data d))) = false).
  { unfold is_valid_deposit_signature. pose proof (proj2 (deposit_domain_ok E dom) Hd) as Hdo. rewrite Hdo. cbn [rbind].
    destruct (deposit_sig_cases E (dd_public_key (dep_data d)) (dd_withdrawal_credentials (dep_data d)) (dd_amount (dep_data d)) (dd_signature (dep_data d)) dom Hd) as [[X _]|[_ [e X]]]; [contradiction|]. rewrite X. reflexivity. }
  assert (Hp : forall s, is_ok (fst (process_deposit E Electra d s)) = false).
  { intros s. destruct (process_deposit E Electra d s) as [[[]| | |] s'] eqn:Hr; try reflexivity. exfalso. unfold process_deposit, apply_deposit, apply_deposit_electra in Hr. sinv Hr.
    match type of Hr with (match ?o with _ => _ end) _ = _ => destruct o end; sinv Hr; match goal with X : is_valid_deposit_signature _ _ _ _ _ = _ |- _ => rewrite X in Hsig; discriminate Hsig end. }
  assert (Hg : forall l s, is_ok (fst (genesis_deposits E Electra ds l s)) = false).
  { induction ds as [|x ds IH]; intros l s; [contradiction|]. destruct (genesis_deposits E Electra (x :: ds) l s) as [[[]| | |] s'] eqn:Hr; try reflexivity. exfalso. cbn [genesis_deposits] in Hr. cbv zeta in Hr.
    unfold sbind at 1, lift at 1 in Hr. destruct (htr_r _ _) in Hr; try discriminate Hr. rewrite run_md in Hr. unfold sbind at 1 in Hr.
    destruct Hin as [->|Hin].
    - specialize (Hp (set_eth1_data (mkEth1 a (e1_deposit_count (eth1_data s)) (e1_block_hash (eth1_data s))) s)). destruct (process_deposit _ _ _ _) as [[]]; discriminate.
    - destruct (process_deposit _ _ _ _) as [[] s1] in Hr; try discriminate Hr. specialize (IH Hin (l ++ [dep_data x]) s1). rewrite Hr in IH. discriminate IH. }
  unfold initialize_beacon_state_from_eth1. destruct (htr_r _ _); try reflexivity. cbn [rbind]. destruct (add _ _ _); try reflexivity. cbn [rbind].
  unfold genesis_steps, sbind at 1. match goal with |- context [genesis_deposits E Electra ds [] ?b] => specialize (Hg [] b) end. destruct (genesis_deposits _ _ _ _ _) as [[]]; cbn [fst is_ok] in Hg; try reflexivity. discriminate Hg.
Qed.

(** ** example: two keys, a top-up, an ignored deposit *)
Definition genesis_toy : list Deposit :=
  [toy_deposit 0 32000000000 true []; toy_deposit 1 17500000000 true []; toy_deposit 2 32000000000 false []; toy_deposit 1 14600000000 false []; toy_deposit 3 20000000000 true []].
Example C70_toy :
  (forall f : Fork, f = Phase0 \/ f = Deneb -> match initialize_beacon_state_from_eth1 tiny f (repeat 7 32) 1000 genesis_toy None with
   | Ok s => balances s = [32000000000; 32100000000; 20000000000] /\ map v_effective_balance (validators s) = [32000000000; 32000000000; 20000000000]
             /\ map v_activation_epoch (validators s) = [0; 0; FAR_FUTURE_EPOCH] /\ eth1_deposit_index s = 5
             /\ is_valid_genesis_state tiny s = (MIN_GENESIS_ACTIVE_VALIDATOR_COUNT tiny <=? 2) && (MIN_GENESIS_TIME tiny <=? genesis_time s)
   | _ => False end)
  /\ lenN genesis_toy < 2 ^ 64 /\ sumN (map dd_amount (map dep_data genesis_toy)) < 2 ^ 64 /\ 1000 + GENESIS_DELAY tiny < 2 ^ 64
  /\ is_ok (initialize_beacon_state_from_eth1 tiny Electra (repeat 7 32) 1000 genesis_toy None) = false
  /\ is_ok (initialize_beacon_state_from_eth1 tiny Electra (repeat 7 32) 1000 [toy_deposit 0 32000000000 true []] None) = true
  /\ is_ok (initialize_beacon_state_from_eth1 tiny Altair (repeat 7 32) 1000 [toy_deposit 0 32000000000 true [[0]]] None) = false.
Proof. split; [intros f [->| ->]; vm_compute; repeat split; reflexivity|]. repeat split; vm_compute; reflexivity. Qed.

Print Assumptions C70_genesis.
Print Assumptions C70_one_per_key.
Print Assumptions C70_registry_unique.
Print Assumptions C70_valid_genesis.
Print Assumptions C70_phase0_succeeds.
Print Assumptions C70_electra_start_index_refuted.
Print Assumptions C70_electra_unsigned_refuted.
