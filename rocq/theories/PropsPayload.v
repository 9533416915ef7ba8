(** * C117, C118: the execution chain is linked; the randomness is what the proposers revealed *)
From Verif Require Import Base BaseLemmas Types Ctx Env Helpers HelpersAltair HelpersElectra Block Epoch Transition Upgrade StLemmas
  SpecCommon SpecShuffle SpecHelpers SpecElectra SpecOps SpecBlock SpecEpoch SpecFlow SpecAtt SpecQueues SpecFinality SpecSafety SpecAuthority SpecPayload
  HelperProofs HelperProofs2 SlotProofs BlockProofs AuthorityProofs PayloadProofs
  Toy Toy2 Toy3 PropsOps PropsInvariants PropsBlock PropsFlow PropsEpoch PropsAuthority PropsEntry.

(** a block, whatever the outcome, changes the header of the execution chain only to that of its own payload, and only if the payload extends the chain *)
Theorem C117_block (E : Env) f s b r t : ctx_sane E -> hash_wf (hash E) -> chk E = true -> process_block E f b s = (r, t) ->
  latest_execution_payload_header t <> latest_execution_payload_header s ->
  extends E f s b /\ header_of_payload E f (bb_execution_payload (bk_body b)) (latest_execution_payload_header t).
Proof.
  intros Hc Hh Hk H Hne. destruct (exec_block E f b s Hc Hh Hk) as (_ & _ & [X|(_ & X1 & X2 & _)] & _); rewrite H in *; cbn [snd] in *; [contradiction|auto].
Qed.

Lemma carried_more E w p x : carried E w p -> carried E (x :: w) p.
Proof. intros (f & s & b & H & Hx). exists f, s, b. split; [apply block_more; exact H|exact Hx]. Qed.
Lemma bellatrix_grows (E : Env) p q : step E p q -> fork_le Bellatrix (fst p) = true -> fork_le Bellatrix (fst q) = true.
Proof. intros Hs. destruct Hs as [f s t Hb H|f b s r t H|f g s t H Hne]; cbn [fst]; auto. inversion H; subst; auto. Qed.

(** C117: on any chain of calls from bellatrix on, the head of the execution chain is reached from the one at the start by a chain of payloads, each building on the one
    before, each for a later time, each in a block of the chain of calls that satisfies [extends]; only the first may lack a known parent, and only if
    the chain starts before the merge *)
Theorem C117_execution_chain (E : Env) p0 z w : ctx_sane E -> hash_wf (hash E) -> chk E = true -> 1 <= SECONDS_PER_SLOT E ->
  fork_le Bellatrix (fst p0) = true -> walk E p0 (z :: w) ->
  exists l, linked (fst p0 = Bellatrix /\ header_unset E (latest_execution_payload_header (snd p0))) (exec_head (snd p0)) l (exec_head (snd z))
    /\ forall p, In p l -> carried E (z :: w) p.
Proof.
  intros Hc Hh Hk Hsec Hf Hw. set (pre := fst p0 = Bellatrix /\ _).
  enough (G : fork_le Bellatrix (fst z) = true /\ genesis_time (snd z) = genesis_time (snd p0) /\ exists l, linked pre (exec_head (snd p0)) l (exec_head (snd z)) /\ (forall p, In p l -> carried E (z :: w) p)
    /\ (forall p, In p l -> ep_timestamp p <= genesis_time (snd p0) + bh_slot (latest_block_header (snd z)) * SECONDS_PER_SLOT E)
    /\ (fst z = Bellatrix -> fst p0 = Bellatrix /\ match l with [] => latest_execution_payload_header (snd z) = latest_execution_payload_header (snd p0)
                                                    | _ => ~ header_unset E (latest_execution_payload_header (snd z)) end)).
  { destruct G as (_ & _ & l & G1 & G2 & _). eauto. }
  remember (z :: w) as l0 eqn:El. revert z w El. induction Hw as [|p q l0 Hw IH Hs]; intros z w [= <- <-].
  { split; [exact Hf|]. split; [reflexivity|]. exists []. split; [constructor|]. split; [intros p []|]. split; [intros p []|auto]. }
  destruct (IH p l0 eq_refl) as (F & T & l & L1 & L2 & L3 & L4). clear IH. split; [exact (bellatrix_grows E p q Hs F)|].
  destruct Hs as [f s t Hb H|f b s r t H|f g s t H Hne]; cbn [fst snd] in *.
  - destruct (exec_slot E f s t Hc Hk Hb H) as (S1 & S2 & S3 & S4 & _). split; [congruence|]. exists l. unfold exec_head in *. rewrite S3, S4. split; [exact L1|]. split; [intros p Hp; apply carried_more; auto|]. auto.
  - destruct (exec_block E f b s Hc Hh Hk) as (S1 & S2 & S3 & _ & S5). rewrite H in *. cbn [snd] in *. split; [congruence|]. destruct S3 as [S3|(_ & X & Y & B)].
    + exists l. unfold exec_head in *. rewrite S3. split; [exact L1|]. split; [intros p Hp; apply carried_more; auto|]. split; [|exact L4].
      intros p Hp. specialize (L3 p Hp). assert (bh_slot (latest_block_header s) <= bh_slot (latest_block_header t)) by (destruct S5 as [S5|[S5 S6]]; lia).
      eapply N.le_trans; [exact L3|]. apply N.add_le_mono_l. apply N.mul_le_mono_r. assumption.
    + exists (bb_execution_payload (bk_body b) :: l). pose proof X as (X1 & X2 & _ & X4 & _).
      assert (Eh : exec_head t = ep_block_hash (bb_execution_payload (bk_body b))) by (unfold exec_head; apply Y).
      assert (M : forall c, c < slot s -> genesis_time (snd p0) + c * SECONDS_PER_SLOT E < ep_timestamp (bb_execution_payload (bk_body b))).
      { intros c Hlt. rewrite X4, T. apply N.add_lt_mono_l. apply N.mul_lt_mono_pos_r; lia. }
      rewrite Eh. split; [|split; [|split]].
      * econstructor; [exact L1| |intros q Hq; eapply N.le_lt_trans; [apply L3; exact Hq|apply M; exact X1]].
        destruct X2 as [X2|[X2 X3]]; [left; exact X2|]. right. destruct (L4 X2) as [Y1 Y2]. destruct l as [|q l]; [|contradiction]. rewrite Y2 in X3. split; [|reflexivity]. split; assumption.
      * intros p [<-|Hp]; [exists f, s, b; split; [exists r, t; split; [apply passes_head|exact H]|auto]|apply carried_more; auto].
      * intros p [<-|Hp]; [rewrite X4, T, B; lia|]. eapply N.le_trans; [apply L3; exact Hp|]. apply N.add_le_mono_l. apply N.mul_le_mono_r. rewrite B. lia.
      * intros Hbx. split; [apply L4; exact Hbx|]. intros (_ & _ & _ & _ & _ & _ & _ & _ & _ & U & _).
        assert (Ht : eph_timestamp (latest_execution_payload_header t) = ep_timestamp (bb_execution_payload (bk_body b))) by apply Y.
        specialize (M 0 ltac:(lia)). lia.
  - destruct (exec_upgrade E f g s t H Hne) as (S1 & S2 & S3 & _ & S5). destruct (S5 F) as [S6 S7]. split; [congruence|]. exists l. rewrite S6, S3. split; [exact L1|]. split; [intros p Hp; apply carried_more; auto|]. split; [exact L3|]. intros Hg. contradiction.
Qed.

(** ** C118 *)
Theorem C118_block (E : Env) f s b r t : ctx_sane E -> hash_wf (hash E) -> chk E = true -> process_block E f b s = (r, t) -> randao_mixes t <> randao_mixes s ->
  reveals E s b /\ exists mix, current_mix E s = Some mix /\ randao_mixes t = updN (randao_mixes s) (mix_position E s) (xorB mix (hash E (bb_randao_reveal (bk_body b)))).
Proof.
  intros Hc Hh Hk H Hne. destruct (exec_block E f b s Hc Hh Hk) as (_ & _ & _ & [X|(X1 & _ & X2)] & _); rewrite H in *; cbn [snd] in *; [contradiction|auto].
Qed.
Lemma revealed_more_w E w x l : revealed E w l -> revealed E (x :: w) l.
Proof. induction 1; [constructor|]. econstructor; eauto. apply block_more. eassumption. Qed.
Lemma epoch_succ (E : Env) s t : ctx_sane E -> slot t = slot s + 1 -> (slot s + 1) mod SLOTS_PER_EPOCH E = 0 -> epoch_of E t = epoch_of E s + 1.
Proof.
  intros Hc Ht Hm. unfold epoch_of. rewrite Ht. assert (Hp : SLOTS_PER_EPOCH E <> 0) by (ctxs Hc; lia). set (k := SLOTS_PER_EPOCH E) in *. clearbody k.
  pose proof (N.div_mod (slot s + 1) k Hp) as D. rewrite Hm, N.add_0_r in D. set (q := (slot s + 1) / k) in *. assert (Hq : q <> 0) by (intros ->; lia).
  apply N.add_cancel_r with (p := 0). rewrite N.add_0_r. enough (slot s / k = q - 1) by lia. symmetry. apply (N.div_unique _ _ _ (k - 1)); [lia|].
  assert (k * q = k * (q - 1) + k) by (rewrite <- N.mul_succ_r; f_equal; lia). lia.
Qed.
Lemma epoch_same (E : Env) s t : ctx_sane E -> slot t = slot s + 1 -> (slot s + 1) mod SLOTS_PER_EPOCH E <> 0 -> epoch_of E t = epoch_of E s.
Proof.
  intros Hc Ht Hm. unfold epoch_of. rewrite Ht. assert (Hp : SLOTS_PER_EPOCH E <> 0) by (ctxs Hc; lia). set (k := SLOTS_PER_EPOCH E) in *. clearbody k.
  pose proof (N.div_mod (slot s + 1) k Hp) as D. set (q := (slot s + 1) / k) in *. pose proof (N.mod_lt (slot s + 1) k Hp) as L. set (m := (slot s + 1) mod k) in *. clearbody q m.
  apply (N.div_unique _ _ _ (m - 1)); lia.
Qed.
(** C118: on any chain of calls the randomness of the current epoch is that at the start with the hashes of the reveals of blocks on the chain mixed in, each signed by the
    proposer of its slot, at most one for each slot *)
Theorem C118_randomness (E : Env) p0 z w mix : ctx_sane E -> hash_wf (hash E) -> chk E = true -> lenN (randao_mixes (snd p0)) = EPOCHS_PER_HISTORICAL_VECTOR E ->
  walk E p0 (z :: w) -> current_mix E (snd p0) = Some mix ->
  exists l, revealed E (z :: w) l /\ current_mix E (snd z) = Some (mixed E l mix).
Proof.
  intros Hc Hh Hk Hl Hw Hm.
  enough (G : lenN (randao_mixes (snd z)) = EPOCHS_PER_HISTORICAL_VECTOR E /\ exists l, revealed E (z :: w) l /\ current_mix E (snd z) = Some (mixed E l mix)
    /\ forall s b, In (s, b) l -> slot s <= bh_slot (latest_block_header (snd z))).
  { destruct G as (_ & l & G1 & G2 & _). eauto. }
  assert (Hnz : EPOCHS_PER_HISTORICAL_VECTOR E <> 0) by (ctxs Hc; lia).
  remember (z :: w) as l0 eqn:El. revert z w El. induction Hw as [|p q l0 Hw IH Hs]; intros z w [= <- <-].
  { split; [exact Hl|]. exists []. split; [constructor|]. split; [exact Hm|intros s b []]. }
  destruct (IH p l0 eq_refl) as (N1 & l & L1 & L2 & L3). clear IH.
  destruct Hs as [f s t Hb H|f b s r t H|f g s t H Hne]; cbn [fst snd] in *.
  - destruct (exec_slot E f s t Hc Hk Hb H) as (S1 & S2 & S3 & S4 & S5). rewrite S4. destruct (N.eqb_spec ((slot s + 1) mod SLOTS_PER_EPOCH E) 0) as [Hz|Hz].
    + destruct S5 as (m & M1 & M2). rewrite M2, lenN_updN. split; [exact N1|]. exists l. split; [apply revealed_more_w; exact L1|]. split; [|exact L3].
      unfold current_mix at 1. unfold mix_position. rewrite (epoch_succ E s t Hc S1 Hz), M2, nthN_updN_eq; [congruence|]. rewrite N1. apply N.mod_lt. exact Hnz.
    + rewrite S5. split; [exact N1|]. exists l. split; [apply revealed_more_w; exact L1|]. split; [|exact L3]. rewrite <- L2. unfold current_mix, mix_position. rewrite (epoch_same E s t Hc S1 Hz), S5. reflexivity.
  - destruct (exec_block E f b s Hc Hh Hk) as (S1 & S2 & _ & S4 & S5). rewrite H in *. cbn [snd] in *.
    assert (Me : mix_position E t = mix_position E s) by (unfold mix_position, epoch_of; rewrite S1; reflexivity).
    destruct S4 as [S4|(R & B & m & M1 & M2)].
    + rewrite S4. split; [exact N1|]. exists l. split; [apply revealed_more_w; exact L1|]. split; [unfold current_mix in *; rewrite Me, S4; exact L2|].
      intros s' b' Hi. specialize (L3 s' b' Hi). destruct S5 as [S5|[S5 S6]]; lia.
    + rewrite M2, lenN_updN. split; [exact N1|]. exists ((s, b) :: l). split; [|split].
      * eapply revealed_more; [apply revealed_more_w; exact L1|exists r, t; split; [apply passes_head|exact H]|exact R|]. intros s' b' Hi. specialize (L3 s' b' Hi). destruct R as [R _]. lia.
      * unfold current_mix. rewrite Me, M2, nthN_updN_eq by (eapply nthN_some; exact M1). cbn [mixed fold_right snd]. rewrite L2 in M1. injection M1 as <-. reflexivity.
      * intros s' b' [[= <- <-]|Hi]; [lia|]. specialize (L3 s' b' Hi). destruct R as [R _]. lia.
  - destruct (exec_upgrade E f g s t H Hne) as (S1 & S2 & S3 & S4 & _). rewrite S4, S3. split; [exact N1|]. exists l. split; [apply revealed_more_w; exact L1|]. split; [|exact L3].
    rewrite <- L2. unfold current_mix, mix_position, epoch_of. rewrite S1, S4. reflexivity.
Qed.
(** the randomness of a past epoch stays as it is while it is on record *)
Theorem C118_past_is_fixed (E : Env) p0 z w e : ctx_sane E -> hash_wf (hash E) -> chk E = true -> walk E p0 (z :: w) ->
  e < epoch_of E (snd p0) -> epoch_of E (snd z) < e + EPOCHS_PER_HISTORICAL_VECTOR E ->
  nthN (randao_mixes (snd z)) (e mod EPOCHS_PER_HISTORICAL_VECTOR E) = nthN (randao_mixes (snd p0)) (e mod EPOCHS_PER_HISTORICAL_VECTOR E).
Proof.
  intros Hc Hh Hk Hw He Hz. assert (Hp : SLOTS_PER_EPOCH E <> 0) by (ctxs Hc; lia).
  assert (Ne : forall V c, e < c -> c < e + V -> c mod V <> e mod V).
  { intros V c H1 H2 Hm. assert (V <> 0) by lia. pose proof (N.div_mod c V ltac:(assumption)) as D1. pose proof (N.div_mod e V ltac:(assumption)) as D2. rewrite Hm in D1.
    assert (X : c - e = V * (c / V - e / V)). { rewrite N.mul_sub_distr_l. lia. } destruct (N.eq_dec (c / V - e / V) 0) as [X0|X0]; [rewrite X0, N.mul_0_r in X; lia|].
    assert (V * 1 <= V * (c / V - e / V)) by (apply N.mul_le_mono_l; lia). lia. }
  set (V := EPOCHS_PER_HISTORICAL_VECTOR E) in *.
  enough (G : epoch_of E (snd p0) <= epoch_of E (snd z) /\ (epoch_of E (snd z) < e + V -> nthN (randao_mixes (snd z)) (e mod V) = nthN (randao_mixes (snd p0)) (e mod V))) by (apply G; exact Hz).
  clear Hz. remember (z :: w) as l0 eqn:El. revert z w El. induction Hw as [|p q l0 Hw IH Hs]; intros z w [= <- <-]; [split; [lia|reflexivity]|].
  destruct (IH p l0 eq_refl) as (N1 & N2). clear IH.
  destruct Hs as [f s t Hb H|f b s r t H|f g s t H Hne]; cbn [fst snd] in *.
  - destruct (exec_slot E f s t Hc Hk Hb H) as (S1 & S2 & S3 & S4 & S5). destruct (N.eqb_spec ((slot s + 1) mod SLOTS_PER_EPOCH E) 0) as [Hm|Hm].
    + destruct S5 as (m & M1 & M2). pose proof (epoch_succ E s t Hc S1 Hm) as Q. split; [lia|]. intros Hlt. rewrite M2. fold V. rewrite nthN_updN_ne by (apply Ne; lia). apply N2. lia.
    + rewrite (epoch_same E s t Hc S1 Hm), S5. auto.
  - destruct (exec_block E f b s Hc Hh Hk) as (S1 & S2 & _ & S4 & S5). rewrite H in *. cbn [snd] in *. assert (Q : epoch_of E t = epoch_of E s) by (unfold epoch_of; rewrite S1; reflexivity). rewrite Q. split; [exact N1|].
    intros Hlt. destruct S4 as [S4|(R & B & m & M1 & M2)]; [rewrite S4; auto|]. rewrite M2, nthN_updN_ne; [auto|]. unfold mix_position. fold V. apply Ne; lia.
  - destruct (exec_upgrade E f g s t H Hne) as (S1 & S2 & S3 & S4 & _). assert (Q : epoch_of E t = epoch_of E s) by (unfold epoch_of; rewrite S1; reflexivity). rewrite Q, S4. auto.
Qed.

(** a chain of two blocks with a slot between them *)
Definition first_block : BeaconBlock := tiny_block slash_toy 1.
Definition after_first : BeaconState := snd (process_block tiny Deneb first_block slash_toy).
Definition next_slot : BeaconState := snd (process_slots tiny Deneb 14 after_first).
Definition second_block : BeaconBlock :=
  let b := tiny_block next_slot 0 in let body := bk_body b in let p := bb_execution_payload body in
  mkBlock (bk_slot b) (bk_proposer_index b) (bk_parent_root b) (bk_state_root b)
    (mkBody (bb_randao_reveal body) (bb_eth1_data body) (bb_graffiti body) [] [] [] [] [] (bb_sync_aggregate body)
       (mkPayload (repeat 5 32) (ep_fee_recipient p) (ep_state_root p) (ep_receipts_root p) (ep_logs_bloom p) (ep_prev_randao p) 8 (ep_gas_limit p) (ep_gas_used p)
          (ep_timestamp p) (ep_extra_data p) (ep_base_fee_per_gas p) (repeat 6 32) [] [] 0 0 [] []) [] [] []).
Definition after_second : BeaconState := snd (process_block tiny Deneb second_block next_slot).
Lemma two_block_walk : walk tiny (Deneb, slash_toy) [(Deneb, after_second); (Deneb, next_slot); (Deneb, after_first); (Deneb, slash_toy)].
Proof.
  apply walk_step; [|eapply step_block; apply surjective_pairing]. apply walk_step; [apply one_block|]. apply step_slot; [vm_compute; reflexivity|].
  assert (Hs : slot after_first + 1 = 14) by (vm_compute; reflexivity). rewrite Hs. assert (H : fst (process_slots tiny Deneb 14 after_first) = Ok tt) by (vm_compute; reflexivity). unfold next_slot. rewrite <- H. apply surjective_pairing.
Qed.
Example C117_example : ctx_sane tiny /\ hash_wf (hash tiny) /\ chk tiny = true /\ 1 <= SECONDS_PER_SLOT tiny
  /\ walk tiny (Deneb, slash_toy) [(Deneb, after_second); (Deneb, next_slot); (Deneb, after_first); (Deneb, slash_toy)]
  /\ exec_head slash_toy = repeat 0 32 /\ exec_head after_first = repeat 5 32 /\ exec_head after_second = repeat 6 32.
Proof. split; [exact tiny_sane|]. split; [exact toy_hash_wf|]. split; [reflexivity|]. split; [vm_compute; discriminate|]. split; [exact two_block_walk|]. vm_compute. auto. Qed.
Example C118_example : lenN (randao_mixes slash_toy) = EPOCHS_PER_HISTORICAL_VECTOR tiny
  /\ walk tiny (Deneb, slash_toy) [(Deneb, after_second); (Deneb, next_slot); (Deneb, after_first); (Deneb, slash_toy)]
  /\ exists mix, current_mix tiny slash_toy = Some mix /\ current_mix tiny after_second = Some (mixed tiny [(next_slot, second_block); (slash_toy, first_block)] mix)
     /\ current_mix tiny after_second <> Some mix.
Proof.
  split; [vm_compute; reflexivity|]. split; [exact two_block_walk|]. eexists. split; [vm_compute; reflexivity|]. split; [vm_compute; reflexivity|]. vm_compute. discriminate.
Qed.

Print Assumptions C117_block.
Print Assumptions C117_execution_chain.
Print Assumptions C118_block.
Print Assumptions C118_randomness.
Print Assumptions C118_past_is_fixed.
