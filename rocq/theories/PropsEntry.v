(** * C113, C114: nobody joins the registry without a deposit signed with their key; nobody is activated without full balance and finality *)
From Verif Require Import Base BaseLemmas Types Ctx Env Helpers HelpersAltair HelpersElectra Block Epoch Transition Upgrade StLemmas
  SpecCommon SpecHelpers SpecElectra SpecOps SpecBlock SpecEpoch SpecFlow SpecAtt SpecQueues SpecFinality SpecSafety SpecAuthority SpecEntry
  HelperProofs HelperProofs2 SlotProofs HistoryProofs SafetyChain PropsVotes AuthorityProofs EntryProofs
  Toy Toy2 Toy3 PropsOps PropsInvariants PropsBlock PropsFlow PropsEpoch PropsAuthority.

(** ** One slot *)
Lemma entry_slot (E : Env) f s t : ctx_sane E -> slot_small s -> process_slots E f (slot s + 1) s = (Ok tt, t) ->
  slot t = slot s + 1
  /\ forall i v', nthN (validators t) i = Some v' -> exists v, nthN (validators s) i = Some v
       /\ (v' = v \/ ((slot s + 1) mod SLOTS_PER_EPOCH E = 0 /\ tlink E f s (cp_epoch (finalized_checkpoint t)) i v v')).
Proof.
  intros Hc Hs H. assert (Hb' : slot s + 1 < U64) by (unfold slot_small in Hs; rewrite U64_val; pows; lia).
  assert (Ha : advance_slot E f s = (Ok tt, t)).
  { rewrite process_slots_loop in H by lia. replace (N.to_nat (slot s + 1 - slot s)) with 1%nat in H by lia.
    rewrite loop_step in H by lia. apply sbind_ok_inv in H as ([] & m & H1 & H). rewrite loop_done in H; [injection H as <-; exact H1|].
    destruct (advance_inv E Hc f s m Hb' H1) as (s1 & s2 & _ & _ & _ & S2 & ->). gs. lia. }
  destruct (advance_inv E Hc f s t Hb' Ha) as (s1 & s2 & A1 & A2 & A3 & A4 & ->). gs.
  pose proof (quiet_slot E f s) as Q. rewrite A1 in Q. cbn [snd] in Q. destruct Q as [Q1 Q2 Q3 Q4]. split; [lia|].
  destruct (N.eqb_spec ((slot s + 1) mod SLOTS_PER_EPOCH E) 0) as [Hm|Hm].
  - assert (Hs1 : slot_small s1) by (unfold slot_small; rewrite A2; exact Hs). pose proof (entry_epoch E f s1 s2 Hc Hs1 A3) as I.
    intros i v' Hv. destruct (inv_at _ _ _ _ _ _ I Hv) as [(v & B1 & [L1 L2 L3])|[_ []]]. rewrite Q1 in B1. exists v. split; [exact B1|]. right. split; [exact Hm|].
    assert (He : epoch_of E s1 = epoch_of E s) by (unfold epoch_of; rewrite A2; reflexivity). rewrite He in L2, L3. constructor; assumption.
  - subst s2. rewrite Q1. intros i v' Hv. exists v'. auto.
Qed.
Lemma step_mono (E : Env) p q : ctx_sane E -> step E p q -> slot (snd p) <= slot (snd q).
Proof.
  intros Hc Hs. destruct Hs as [f s t Hb H|f b s r t H|f g s t H Hne]; cbn [snd] in *.
  - destruct (slot_step E f s t Hc Hb H) as (S1 & _). lia.
  - destruct (N.eq_dec (slot s) 0) as [->|H0]; [apply N.le_0_l|]. assert (Hch : chain E (f, s) (f, t)) by (apply (fine_chain E Hc); eapply fine_block; exact H).
    apply (chain_kept E Hc 0) in Hch. apply (proj1 (Hch ltac:(cbn [snd]; lia))).
  - destruct (up_call E f g s t H Hne) as (_ & U2 & _). lia.
Qed.
Lemma ends_more E l f s t x : epoch_ends E l f s t -> epoch_ends E (x :: l) f s t.
Proof. intros (H1 & H2). split; [apply passes_more; exact H1|exact H2]. Qed.

(** ** C113: joining *)
(** one block: every validator in the registry after [process_block], with any outcome, was there before with the same key, or the block has a deposit for
    its key, signed with that key *)
Theorem C113_block (E : Env) f b s r t i v' : process_block E f b s = (r, t) -> nthN (validators t) i = Some v' ->
  (exists v, nthN (validators s) i = Some v /\ v_public_key v' = v_public_key v)
  \/ (nthN (validators s) i = None /\ signed_to_join E f b (v_public_key v')).
Proof.
  intros H Hv. pose proof (j_block E f s b) as I. rewrite H in I. cbn [snd] in I.
  destruct (inv_at _ _ _ _ _ _ I Hv) as [(v & A1 & L)|[A1 (A2 & _)]]; [left; exists v; split; [exact A1|apply L]|right; split; [apply nthN_none; exact A1|exact A2]].
Qed.
(** ... and slot and epoch processing add nobody *)
Theorem C113_slot (E : Env) f s t i v' : ctx_sane E -> slot s + 1 < 2 ^ 64 -> process_slots E f (slot s + 1) s = (Ok tt, t) -> nthN (validators t) i = Some v' ->
  exists v, nthN (validators s) i = Some v /\ v_public_key v' = v_public_key v.
Proof.
  intros Hc Hl H Hv. destruct (slot_step E f s t Hc Hl H) as (_ & _ & S). destruct (S i v' Hv) as (v & A1 & [->|[_ L]]); exists v; split; auto. apply L.
Qed.
(** C113: on any chain, every validator in the registry at the end was there at the start, at the same place and with the same key, or was added by a block
    of the chain with a deposit for its key, signed with that key *)
Theorem C113_nobody_joins_unsigned (E : Env) p0 z l i v' : ctx_sane E -> walk E p0 (z :: l) -> nthN (validators (snd z)) i = Some v' ->
  (exists v, nthN (validators (snd p0)) i = Some v /\ v_public_key v' = v_public_key v)
  \/ exists f s b, passes_block E (z :: l) f s b /\ nthN (validators s) i = None /\ signed_to_join E f b (v_public_key v').
Proof.
  intros Hc Hw. remember (z :: l) as w eqn:Ew. revert z l Ew v'. induction Hw as [|p q l0 Hw IH Hs]; intros z l [= <- <-] v' Hv; [left; eauto|]. specialize (IH p l0 eq_refl).
  assert (G : forall v, nthN (validators (snd p)) i = Some v -> v_public_key v' = v_public_key v ->
    (exists v, nthN (validators (snd p0)) i = Some v /\ v_public_key v' = v_public_key v)
    \/ exists f s b, passes_block E (q :: p :: l0) f s b /\ nthN (validators s) i = None /\ signed_to_join E f b (v_public_key v')).
  { intros v A B. rewrite B. destruct (IH v A) as [C|(f & s & b & C1 & C2)]; [left; exact C|right; exists f, s, b; split; [apply block_more; exact C1|exact C2]]. }
  destruct Hs as [f s t Hb H|f b s r t H|f g s t H Hne]; cbn [snd] in *.
  - destruct (C113_slot E f s t i v' Hc Hb H Hv) as (v & A1 & A2). exact (G v A1 A2).
  - destruct (C113_block E f b s r t i v' H Hv) as [(v & A1 & A2)|A]; [exact (G v A1 A2)|]. right. exists f, s, b. split; [exists r, t; split; [apply passes_head|exact H]|exact A].
  - destruct (vup_call E f g s t H Hne i v' Hv) as (v & A1 & A2). apply (G v A1). apply A2.
Qed.

(** ** C114: becoming active *)
(** blocks, with any outcome, neither put a validator in line nor activate it; a new validator is neither *)
Theorem C114_block (E : Env) f b s r t i v' : process_block E f b s = (r, t) -> nthN (validators t) i = Some v' ->
  (exists v, nthN (validators s) i = Some v /\ v_activation_epoch v' = v_activation_epoch v /\ v_activation_eligibility_epoch v' = v_activation_eligibility_epoch v)
  \/ (nthN (validators s) i = None /\ v_activation_epoch v' = FAR_FUTURE_EPOCH /\ v_activation_eligibility_epoch v' = FAR_FUTURE_EPOCH).
Proof.
  intros H Hv. pose proof (j_block E f s b) as I. rewrite H in I. cbn [snd] in I.
  destruct (inv_at _ _ _ _ _ _ I Hv) as [(v & A1 & L)|[A1 (_ & A2)]]; [left; exists v; split; [exact A1|split; apply L]|right; split; [apply nthN_none; exact A1|exact A2]].
Qed.
(** the end of an epoch does, under the conditions of [lines_up] and [activates] *)
Theorem C114_slot (E : Env) f s t i v' : ctx_sane E -> slot_small s -> process_slots E f (slot s + 1) s = (Ok tt, t) -> nthN (validators t) i = Some v' ->
  exists v, nthN (validators s) i = Some v
    /\ (v_activation_eligibility_epoch v' = v_activation_eligibility_epoch v \/ ((slot s + 1) mod SLOTS_PER_EPOCH E = 0 /\ lines_up E f s t i))
    /\ (v_activation_epoch v' = v_activation_epoch v \/ ((slot s + 1) mod SLOTS_PER_EPOCH E = 0 /\ activates E s t i)).
Proof.
  intros Hc Hl H Hv. destruct (entry_slot E f s t Hc Hl H) as (_ & S). destruct (S i v' Hv) as (v & A1 & [->|[A2 [L1 L2 L3]]]); exists v; (split; [exact A1|]); [auto|]. split.
  - destruct L3 as [L3|(B1 & B2 & B3)]; [left; exact L3|]. right. split; [exact A2|]. exists v, v'. auto.
  - destruct L2 as [L2|(B1 & B2 & B3)]; [left; exact L2|]. right. split; [exact A2|]. exists v, v'. auto 10.
Qed.
Section Walk.
Variable E : Env.
Hypothesis Hc : ctx_sane E.
(** what a step does to the epochs of a validator *)
Lemma step_entry p q l i v' : step E p q -> slot_small (snd q) -> nthN (validators (snd q)) i = Some v' ->
  slot_small (snd p)
  /\ (v_activation_epoch v' = FAR_FUTURE_EPOCH \/ (exists v, nthN (validators (snd p)) i = Some v /\ v_activation_epoch v' = v_activation_epoch v)
      \/ exists f, epoch_ends E (q :: p :: l) f (snd p) (snd q) /\ activates E (snd p) (snd q) i)
  /\ (v_activation_eligibility_epoch v' = FAR_FUTURE_EPOCH \/ (exists v, nthN (validators (snd p)) i = Some v /\ v_activation_eligibility_epoch v' = v_activation_eligibility_epoch v)
      \/ exists f, epoch_ends E (q :: p :: l) f (snd p) (snd q) /\ lines_up E f (snd p) (snd q) i).
Proof.
  intros Hs Hq Hv. pose proof (step_mono E p q Hc Hs) as Hm. assert (Hp : slot_small (snd p)) by (unfold slot_small in *; lia). split; [exact Hp|].
  destruct Hs as [f s t Hb H|f b s r t H|f g s t H Hne]; cbn [snd] in *.
  - destruct (C114_slot E f s t i v' Hc Hp H Hv) as (v & A1 & A2 & A3). split.
    + right. destruct A3 as [A3|[A3 A4]]; [left; eauto|right]. exists f. split; [|exact A4]. split; [apply passes_head|]. auto.
    + right. destruct A2 as [A2|[A2 A4]]; [left; eauto|right]. exists f. split; [|exact A4]. split; [apply passes_head|]. auto.
  - destruct (C114_block E f b s r t i v' H Hv) as [(v & A1 & A2 & A3)|(_ & A2 & A3)]; [split; right; left; eauto|split; left; assumption].
  - destruct (vup_call E f g s t H Hne i v' Hv) as (v & A1 & [B1 B2 B3]). split; [right; left; eauto|]. destruct B3 as [B3|B3]; [right; left; eauto|left; exact B3].
Qed.
End Walk.
(** C114: on any chain, whoever has an activation epoch at the end had one at the start, or was given it at the end of an epoch at which the epoch since
    which it was in line was finalized, for after the lookahead *)
Theorem C114_activated_after_finality (E : Env) p0 z l i v' : ctx_sane E -> walk E p0 (z :: l) -> slot_small (snd z) ->
  nthN (validators (snd z)) i = Some v' -> v_activation_epoch v' <> FAR_FUTURE_EPOCH ->
  (exists v, nthN (validators (snd p0)) i = Some v /\ v_activation_epoch v <> FAR_FUTURE_EPOCH)
  \/ exists f s t, epoch_ends E (z :: l) f s t /\ activates E s t i.
Proof.
  intros Hc Hw. remember (z :: l) as w eqn:Ew. revert z l Ew v'. induction Hw as [|p q l0 Hw IH Hs]; intros z l [= <- <-] v' Hz Hv Ha; [left; eauto|].
  destruct (step_entry E Hc p q l0 i v' Hs Hz Hv) as (Hp & [A|[(v & A1 & A2)|(f & A)]] & _); [congruence| |right; eauto].
  rewrite A2 in Ha. destruct (IH p l0 eq_refl v Hp A1 Ha) as [B|(f & s & t & B1 & B2)]; [left; exact B|]. right. exists f, s, t. split; [apply ends_more; exact B1|exact B2].
Qed.
(** ... and whoever is in line for activation at the end was in line at the start, or was put in line at the end of an epoch, with a full balance *)
Theorem C114_in_line_with_full_balance (E : Env) p0 z l i v' : ctx_sane E -> walk E p0 (z :: l) -> slot_small (snd z) ->
  nthN (validators (snd z)) i = Some v' -> v_activation_eligibility_epoch v' <> FAR_FUTURE_EPOCH ->
  (exists v, nthN (validators (snd p0)) i = Some v /\ v_activation_eligibility_epoch v <> FAR_FUTURE_EPOCH)
  \/ exists f s t, epoch_ends E (z :: l) f s t /\ lines_up E f s t i.
Proof.
  intros Hc Hw. remember (z :: l) as w eqn:Ew. revert z l Ew v'. induction Hw as [|p q l0 Hw IH Hs]; intros z l [= <- <-] v' Hz Hv Ha; [left; eauto|].
  destruct (step_entry E Hc p q l0 i v' Hs Hz Hv) as (Hp & _ & [A|[(v & A1 & A2)|(f & A)]]); [congruence| |right; eauto].
  rewrite A2 in Ha. destruct (IH p l0 eq_refl v Hp A1 Ha) as [B|(f & s & t & B1 & B2)]; [left; exact B|]. right. exists f, s, t. split; [apply ends_more; exact B1|exact B2].
Qed.

(** ** Examples *)
Definition join_toy : BeaconState := set_eth1_data (mkEth1 zero32 5 zero32) slash_toy.
Definition join_block (good : bool) : BeaconBlock :=
  let b := tiny_block join_toy 1 in let body := bk_body b in
  mkBlock (bk_slot b) (bk_proposer_index b) (bk_parent_root b) (bk_state_root b)
    (mkBody (bb_randao_reveal body) (bb_eth1_data body) (bb_graffiti body) [] [] [] [toy_deposit 7 32000000000 good []] [] (bb_sync_aggregate body) (bb_execution_payload body) [] [] []).
Example C113_example : let t := snd (process_block tiny Capella (join_block true) join_toy) in
  ctx_sane tiny /\ walk tiny (Capella, join_toy) [(Capella, t); (Capella, join_toy)]
  /\ lenN (validators join_toy) = 4 /\ option_map v_public_key (nthN (validators t) 4) = Some (toy_pk 7)
  /\ lenN (validators (snd (process_block tiny Capella (join_block false) join_toy))) = 4.
Proof. cbv zeta. split; [exact tiny_sane|]. split; [apply one_block|]. repeat split; vm_compute; reflexivity. Qed.
Example C114_example : let t := snd (process_slots tiny Altair 16 epoch_toy) in
  ctx_sane tiny /\ walk tiny (Altair, epoch_toy) [(Altair, t); (Altair, epoch_toy)] /\ slot_small t
  /\ map v_activation_epoch (validators epoch_toy) = [0; 0; FAR_FUTURE_EPOCH; FAR_FUTURE_EPOCH; 0; FAR_FUTURE_EPOCH]
  /\ map v_activation_epoch (validators t) = [0; 0; FAR_FUTURE_EPOCH; 8; 0; 8]
  /\ map v_activation_eligibility_epoch (validators epoch_toy) = [0; 0; FAR_FUTURE_EPOCH; 0; 0; 0]
  /\ map v_activation_eligibility_epoch (validators t) = [0; 0; 4; 0; 0; 0].
Proof.
  cbv zeta. split; [exact tiny_sane|]. split.
  - apply walk_step; [apply walk_start|]. apply step_slot; [vm_compute; reflexivity|]. change (slot epoch_toy + 1) with 16.
    assert (H : fst (process_slots tiny Altair 16 epoch_toy) = Ok tt) by (vm_compute; reflexivity). rewrite <- H. apply surjective_pairing.
  - repeat split; vm_compute; reflexivity.
Qed.

Print Assumptions C113_block.
Print Assumptions C113_slot.
Print Assumptions C113_nobody_joins_unsigned.
Print Assumptions C114_block.
Print Assumptions C114_slot.
Print Assumptions C114_activated_after_finality.
Print Assumptions C114_in_line_with_full_balance.
