(** * C108, C109, C110: nobody is slashed, made to exit or given other withdrawal credentials without cause *)
From Verif Require Import Base BaseLemmas Types Ctx Env Helpers HelpersAltair HelpersElectra Block Epoch Transition Upgrade StLemmas
  SpecCommon SpecHelpers SpecElectra SpecOps SpecBlock SpecEpoch SpecFlow SpecAtt SpecQueues SpecFinality SpecSafety SpecAuthority
  HelperProofs HelperProofs2 SlotProofs HistoryProofs SafetyChain PropsVotes AuthorityProofs
  Toy Toy2 Toy3 PropsOps PropsInvariants PropsBlock PropsQueues.

(** ** One slot *)
Lemma quiet_slot (E : Env) f : pres quiet (process_slot E f).
Proof. unfold process_slot. qt. apply pres_md. intros t. destruct (bytes_eqb _ _); [constructor; gs; reflexivity|apply quiet_refl]. Qed.
Lemma kc_slot (E : Env) f : pres kc (process_slot E f).
Proof. unfold process_slot. kcs. apply pres_md. intros t. unfold kc. destruct (bytes_eqb _ _); gs; reflexivity. Qed.
Lemma slot_step (E : Env) f s t : ctx_sane E -> slot s + 1 < 2 ^ 64 -> process_slots E f (slot s + 1) s = (Ok tt, t) ->
  slot t = slot s + 1 /\ incl (pending_consolidations t) (pending_consolidations s)
  /\ forall i v', nthN (validators t) i = Some v' -> exists v, nthN (validators s) i = Some v /\ (v' = v \/ ((slot s + 1) mod SLOTS_PER_EPOCH E = 0 /\ elink E f s i v v')).
Proof.
  intros Hc Hb H. assert (Hb' : slot s + 1 < U64) by (rewrite U64_val; pows; lia).
  assert (Ha : advance_slot E f s = (Ok tt, t)).
  { rewrite process_slots_loop in H by lia. replace (N.to_nat (slot s + 1 - slot s)) with 1%nat in H by lia.
    rewrite loop_step in H by lia. apply sbind_ok_inv in H as ([] & m & H1 & H). rewrite loop_done in H; [injection H as <-; exact H1|].
    destruct (advance_inv E Hc f s m Hb' H1) as (s1 & s2 & _ & _ & _ & S2 & ->). gs. lia. }
  destruct (advance_inv E Hc f s t Hb' Ha) as (s1 & s2 & A1 & A2 & A3 & A4 & ->). gs.
  pose proof (quiet_slot E f s) as Q. pose proof (kc_slot E f s) as K. rewrite A1 in Q, K. cbn [snd] in Q, K. destruct Q as [Q1 Q2 Q3 Q4]. unfold kc in K. split; [lia|].
  destruct (N.eqb_spec ((slot s + 1) mod SLOTS_PER_EPOCH E) 0) as [Hm|Hm].
  - pose proof (ep_epoch E f s1 Hc) as I. pose proof (epoch_queue E f s1) as Hq. rewrite A3 in I, Hq. cbn [snd] in I, Hq. rewrite K in Hq. split; [exact Hq|].
    intros i v' Hv. destruct (inv_at _ _ _ _ _ _ I Hv) as [(v & B1 & [L1 L2 L3 L4])|[_ []]]. rewrite Q1 in B1. exists v. split; [exact B1|]. right. split; [exact Hm|].
    constructor; [exact L1|exact L2| |].
    + destruct L3 as [L3|[L3 L3']]; [left; exact L3|]. right. split; [|exact L3']. unfold epoch_of in *. rewrite Q4 in L3. exact L3.
    + unfold consolidation_target in *. rewrite K in L4. exact L4.
  - subst s2. rewrite K, Q1. split; [apply incl_refl|]. intros i v' Hv. exists v'. auto.
Qed.

(** ** One step of a walk *)
Lemma passes_more l p q x : passes l p q -> passes (x :: l) p q.
Proof. intros (l1 & l2 & ->). exists (x :: l1), l2. reflexivity. Qed.
Lemma passes_head l p q : passes (q :: p :: l) p q.
Proof. exists [], l. reflexivity. Qed.
Lemma block_more E l f s b x : passes_block E l f s b -> passes_block E (x :: l) f s b.
Proof. intros (r & t & H1 & H2). exists r, t. split; [apply passes_more; exact H1|exact H2]. Qed.
Lemma epoch_more E l f s x : passes_epoch E l f s -> passes_epoch E (x :: l) f s.
Proof. intros (t & H1 & H2). exists t. split; [apply passes_more; exact H1|exact H2]. Qed.

(** what a step does to the validator at position [i], and to the queue of consolidations *)
Inductive seen (E : Env) (l : list (Fork * BeaconState)) (s : BeaconState) (i : N) (v' : Validator) : Prop :=
| seen_same v : nthN (validators s) i = Some v -> v_slashed v' = v_slashed v -> v_exit_epoch v' = v_exit_epoch v -> v_withdrawal_credentials v' = v_withdrawal_credentials v -> seen E l s i v'
| seen_block f b v : passes_block E l f s b -> nthN (validators s) i = Some v -> blink E f s b i v v' -> seen E l s i v'
| seen_new f b : passes_block E l f s b -> lenN (validators s) <= i -> bfresh v' -> seen E l s i v'
| seen_epoch f v : passes_epoch E l f s -> nthN (validators s) i = Some v -> elink E f s i v v' -> seen E l s i v'.
Lemma step_seen (E : Env) p q l : ctx_sane E -> step E p q -> slot (snd q) < 2 ^ 64 - 1 ->
  slot (snd p) < 2 ^ 64 - 1
  /\ (forall i v', nthN (validators (snd q)) i = Some v' -> seen E (q :: p :: l) (snd p) i v')
  /\ (forall c, In c (pending_consolidations (snd q)) -> In c (pending_consolidations (snd p))
        \/ exists f b, passes_block E (q :: p :: l) f (snd p) b /\ asks_consolidation E f (snd p) b (pc_source_index c) (pc_target_index c)).
Proof.
  intros Hc Hs Hq. destruct Hs as [f s t Hb H|f b s r t H|f g s t H Hne]; cbn [snd] in *.
  - destruct (slot_step E f s t Hc Hb H) as (S1 & S2 & S3). split; [lia|]. split; [|intros c Hi; left; apply S2; exact Hi].
    intros i v' Hv. destruct (S3 i v' Hv) as (v & A1 & [->|[A2 A3]]); [apply (seen_same _ _ _ _ _ v A1); reflexivity|].
    apply (seen_epoch _ _ _ _ _ f v); [exists t; split; [apply passes_head|split; assumption]|exact A1|exact A3].
  - assert (Hk : slot s <= slot t).
    { destruct (N.eq_dec (slot s) 0) as [->|H0]; [apply N.le_0_l|]. assert (Hch : chain E (f, s) (f, t)) by (apply (fine_chain E Hc); eapply fine_block; exact H).
      apply (chain_kept E Hc 0) in Hch. apply (proj1 (Hch ltac:(cbn [snd]; lia))). }
    assert (Hl : slot s < 2 ^ 64 - 1) by lia. split; [exact Hl|]. destruct (q_block E f s b Hc Hl) as [I Iq]. rewrite H in I, Iq. cbn [snd] in I, Iq.
    assert (Hp : passes_block E ((f, t) :: (f, s) :: l) f s b) by (exists r, t; split; [apply passes_head|exact H]). split.
    + intros i v' Hv. destruct (inv_at _ _ _ _ _ _ I Hv) as [(v & A1 & A2)|[A1 A2]]; [eapply seen_block; eauto|eapply seen_new; eauto].
    + intros c Hi. destruct (Iq c Hi) as [A|A]; [left; exact A|]. right. exists f, b. auto.
  - destruct (up_call E f g s t H Hne) as (U1 & U2 & U3). split; [lia|]. split; [|intros c Hi; rewrite U3 in Hi; destruct Hi].
    intros i v' Hv. destruct (U1 i v' Hv) as (v & A1 & [B1 B2 B3 B4]). eapply seen_same; eauto.
Qed.

(** ** The theorems *)
(** C108, one block: whoever is slashed after [process_block], with any outcome, was slashed before or is convicted by evidence in the block *)
Theorem C108_block (E : Env) f b s r t i v' : ctx_sane E -> slot s < 2 ^ 64 - 1 -> process_block E f b s = (r, t) ->
  nthN (validators t) i = Some v' -> v_slashed v' = true ->
  (exists v, nthN (validators s) i = Some v /\ v_slashed v = true) \/ convicted E s b i.
Proof.
  intros Hc Hl H Hv Hs. pose proof (blk_block E f s b Hc Hl) as I. rewrite H in I. cbn [snd] in I.
  destruct (inv_at _ _ _ _ _ _ I Hv) as [(v & A1 & L)|[_ (A & _)]]; [|congruence]. destruct (bl_slashed _ _ _ _ _ _ _ L) as [B|B]; [left; exists v; split; [exact A1|congruence]|right; exact B].
Qed.
(** ... and no number of empty slots, with all their epoch processing, slashes anyone *)
Theorem C108_slot (E : Env) f s t i v' : ctx_sane E -> slot s + 1 < 2 ^ 64 -> process_slots E f (slot s + 1) s = (Ok tt, t) ->
  nthN (validators t) i = Some v' -> v_slashed v' = true -> exists v, nthN (validators s) i = Some v /\ v_slashed v = true.
Proof.
  intros Hc Hl H Hv Hs. destruct (slot_step E f s t Hc Hl H) as (_ & _ & S). destruct (S i v' Hv) as (v & A1 & [->|[_ L]]); [eauto|].
  exists v. split; [exact A1|]. rewrite <- (el_slashed _ _ _ _ _ _ L). exact Hs.
Qed.
(** C108: on any chain, whoever is slashed at the end was slashed at the start, or a block of the chain contains evidence that convicts them *)
Theorem C108_only_the_guilty_are_slashed (E : Env) p0 z l i v' : ctx_sane E -> walk E p0 (z :: l) -> slot (snd z) < 2 ^ 64 - 1 ->
  nthN (validators (snd z)) i = Some v' -> v_slashed v' = true ->
  (exists v, nthN (validators (snd p0)) i = Some v /\ v_slashed v = true)
  \/ exists f s b, passes_block E (z :: l) f s b /\ convicted E s b i.
Proof.
  intros Hc Hw. remember (z :: l) as w eqn:Ew. revert z l Ew v'. induction Hw as [|p q l0 Hw IH Hs]; intros z l [= <- <-] v' Hz Hv Hsl; [left; eauto|].
  destruct (step_seen E p q l0 Hc Hs Hz) as (Hp & Hseen & _). specialize (IH p l0 eq_refl).
  assert (G : forall v, nthN (validators (snd p)) i = Some v -> v_slashed v = true ->
    (exists v, nthN (validators (snd p0)) i = Some v /\ v_slashed v = true) \/ exists f s b, passes_block E (q :: p :: l0) f s b /\ convicted E s b i).
  { intros v A B. destruct (IH v Hp A B) as [C|(f & s & b & C1 & C2)]; [left; exact C|right; exists f, s, b; split; [apply block_more; exact C1|exact C2]]. }
  destruct (Hseen i v' Hv) as [v A1 A2 A3 A4|f b v A0 A1 A2|f b A0 A1 A2|f v A0 A1 A2].
  - apply (G v A1). congruence.
  - destruct (bl_slashed _ _ _ _ _ _ _ A2) as [B|B]; [apply (G v A1); congruence|]. right. exists f, (snd p), b. auto.
  - destruct A2 as (A2 & _). congruence.
  - apply (G v A1). rewrite <- (el_slashed _ _ _ _ _ _ A2). exact Hsl.
Qed.

(** C109, one block: a validator given an exit epoch by [process_block] was convicted by the block, asked to exit with its own key, was asked to exit from
    the address in its credentials, or signed to be consolidated into another *)
Theorem C109_block (E : Env) f b s r t i v' : ctx_sane E -> slot s < 2 ^ 64 - 1 -> process_block E f b s = (r, t) ->
  nthN (validators t) i = Some v' -> v_exit_epoch v' <> FAR_FUTURE_EPOCH ->
  exists v, nthN (validators s) i = Some v /\ (v_exit_epoch v' = v_exit_epoch v \/ exit_due E f s b i v).
Proof.
  intros Hc Hl H Hv Hs. pose proof (blk_block E f s b Hc Hl) as I. rewrite H in I. cbn [snd] in I.
  destruct (inv_at _ _ _ _ _ _ I Hv) as [(v & A1 & L)|[_ (_ & _ & A)]]; [|congruence]. exists v. split; [exact A1|]. exact (bl_exit _ _ _ _ _ _ _ L).
Qed.
(** ... and only the end of an epoch makes a validator exit on its own, an active one whose effective balance is down to the ejection balance *)
Theorem C109_slot (E : Env) f s t i v' : ctx_sane E -> slot s + 1 < 2 ^ 64 -> process_slots E f (slot s + 1) s = (Ok tt, t) ->
  nthN (validators t) i = Some v' ->
  exists v, nthN (validators s) i = Some v /\ (v_exit_epoch v' = v_exit_epoch v \/ ((slot s + 1) mod SLOTS_PER_EPOCH E = 0 /\ ejected E s v)).
Proof.
  intros Hc Hl H Hv. destruct (slot_step E f s t Hc Hl H) as (_ & _ & S). destruct (S i v' Hv) as (v & A1 & [->|[A2 L]]); exists v; (split; [exact A1|]); [left; reflexivity|].
  destruct (el_exit _ _ _ _ _ _ L) as [B|B]; [left; exact B|right; split; assumption].
Qed.
(** C109: on any chain, whoever has an exit epoch at the end had one at the start, or there is a step of the chain that gave it one for one of these causes *)
Theorem C109_nobody_exits_without_cause (E : Env) p0 z l i v' : ctx_sane E -> walk E p0 (z :: l) -> slot (snd z) < 2 ^ 64 - 1 ->
  nthN (validators (snd z)) i = Some v' -> v_exit_epoch v' <> FAR_FUTURE_EPOCH ->
  (exists v, nthN (validators (snd p0)) i = Some v /\ v_exit_epoch v <> FAR_FUTURE_EPOCH)
  \/ exists f s v, nthN (validators s) i = Some v /\ v_exit_epoch v = FAR_FUTURE_EPOCH
       /\ ((exists b, passes_block E (z :: l) f s b /\ exit_due E f s b i v) \/ (passes_epoch E (z :: l) f s /\ ejected E s v)).
Proof.
  intros Hc Hw. remember (z :: l) as w eqn:Ew. revert z l Ew v'. induction Hw as [|p q l0 Hw IH Hs]; intros z l [= <- <-] v' Hz Hv Hsl; [left; eauto|].
  destruct (step_seen E p q l0 Hc Hs Hz) as (Hp & Hseen & _). specialize (IH p l0 eq_refl).
  assert (G : forall v, nthN (validators (snd p)) i = Some v -> v_exit_epoch v <> FAR_FUTURE_EPOCH ->
    (exists v, nthN (validators (snd p0)) i = Some v /\ v_exit_epoch v <> FAR_FUTURE_EPOCH) \/ exists f s v, nthN (validators s) i = Some v /\ v_exit_epoch v = FAR_FUTURE_EPOCH
       /\ ((exists b, passes_block E (q :: p :: l0) f s b /\ exit_due E f s b i v) \/ (passes_epoch E (q :: p :: l0) f s /\ ejected E s v))).
  { intros v A B. destruct (IH v Hp A B) as [C|(f & s & w & C1 & C2 & C3)]; [left; exact C|right]. exists f, s, w. split; [exact C1|]. split; [exact C2|].
    destruct C3 as [(b & D1 & D2)|[D1 D2]]; [left; exists b; split; [apply block_more; exact D1|exact D2]|right; split; [apply epoch_more; exact D1|exact D2]]. }
  destruct (Hseen i v' Hv) as [v A1 A2 A3 A4|f b v A0 A1 A2|f b A0 A1 A2|f v A0 A1 A2].
  - apply (G v A1). congruence.
  - destruct (N.eq_dec (v_exit_epoch v) FAR_FUTURE_EPOCH) as [Hf|Hf]; [|apply (G v A1 Hf)]. destruct (bl_exit _ _ _ _ _ _ _ A2) as [B|B]; [congruence|].
    right. exists f, (snd p), v. split; [exact A1|]. split; [exact Hf|]. left. exists b. auto.
  - destruct A2 as (_ & _ & A2). congruence.
  - destruct (N.eq_dec (v_exit_epoch v) FAR_FUTURE_EPOCH) as [Hf|Hf]; [|apply (G v A1 Hf)]. destruct (el_exit _ _ _ _ _ _ A2) as [B|B]; [congruence|].
    right. exists f, (snd p), v. split; [exact A1|]. split; [exact Hf|]. right. auto.
Qed.

(** C110, one block: the credentials of a registered validator after [process_block] are those it had or those its withdrawal key asked for, possibly made compounding *)
Theorem C110_block (E : Env) f b s r t i v : ctx_sane E -> slot s < 2 ^ 64 - 1 -> process_block E f b s = (r, t) -> nthN (validators s) i = Some v ->
  exists v', nthN (validators t) i = Some v' /\ credentials_due E f s b i v (v_withdrawal_credentials v').
Proof.
  intros Hc Hl H Hv. pose proof (blk_block E f s b Hc Hl) as I. rewrite H in I. cbn [snd] in I.
  destruct (iv_old _ _ _ _ I i v Hv) as (v' & A1 & L). exists v'. split; [exact A1|]. exact (bl_cred _ _ _ _ _ _ _ L).
Qed.
(** ... and only the end of an epoch changes credentials without a block, making those of the target of a queued consolidation compounding *)
Theorem C110_slot (E : Env) f s t i v' : ctx_sane E -> slot s + 1 < 2 ^ 64 -> process_slots E f (slot s + 1) s = (Ok tt, t) ->
  nthN (validators t) i = Some v' ->
  exists v, nthN (validators s) i = Some v
    /\ (v_withdrawal_credentials v' = v_withdrawal_credentials v
        \/ ((slot s + 1) mod SLOTS_PER_EPOCH E = 0 /\ consolidation_target f s i /\ nthN (v_withdrawal_credentials v) 0 = Some 1
            /\ v_withdrawal_credentials v' = 2 :: skipn 1 (v_withdrawal_credentials v))).
Proof.
  intros Hc Hl H Hv. destruct (slot_step E f s t Hc Hl H) as (_ & _ & S). destruct (S i v' Hv) as (v & A1 & [->|[A2 L]]); exists v; (split; [exact A1|]); [left; reflexivity|].
  destruct (el_cred _ _ _ _ _ _ L) as [B|(B1 & B2 & B3)]; [left; exact B|right; auto].
Qed.
(** C110: on any chain, credentials that differ from those at the start were set when a block registered the validator, or changed because a block contained
    a request signed with the withdrawal key or with the validator's own key, or because the validator is the target of a queued consolidation *)
Theorem C110_credentials_change_only_on_request (E : Env) p0 z l i v' : ctx_sane E -> walk E p0 (z :: l) -> slot (snd z) < 2 ^ 64 - 1 ->
  nthN (validators (snd z)) i = Some v' ->
  (exists v, nthN (validators (snd p0)) i = Some v /\ v_withdrawal_credentials v' = v_withdrawal_credentials v)
  \/ (exists f s b, passes_block E (z :: l) f s b /\ nthN (validators s) i = None)
  \/ exists f s v, nthN (validators s) i = Some v
       /\ ((exists b, passes_block E (z :: l) f s b /\ ((exists c, moves_credentials E f s b i v c) \/ asks_compounding E f b v))
           \/ (passes_epoch E (z :: l) f s /\ consolidation_target f s i)).
Proof.
  intros Hc Hw. remember (z :: l) as w eqn:Ew. revert z l Ew v'. induction Hw as [|p q l0 Hw IH Hs]; intros z l [= <- <-] v' Hz Hv; [left; eauto|].
  destruct (step_seen E p q l0 Hc Hs Hz) as (Hp & Hseen & _). specialize (IH p l0 eq_refl).
  assert (G : forall v, nthN (validators (snd p)) i = Some v -> v_withdrawal_credentials v' = v_withdrawal_credentials v ->
    (exists v, nthN (validators (snd p0)) i = Some v /\ v_withdrawal_credentials v' = v_withdrawal_credentials v)
    \/ (exists f s b, passes_block E (q :: p :: l0) f s b /\ nthN (validators s) i = None)
    \/ exists f s v, nthN (validators s) i = Some v
       /\ ((exists b, passes_block E (q :: p :: l0) f s b /\ ((exists c, moves_credentials E f s b i v c) \/ asks_compounding E f b v))
           \/ (passes_epoch E (q :: p :: l0) f s /\ consolidation_target f s i))).
  { intros v A B. rewrite B. destruct (IH v Hp A) as [C|[(f & s & b & C1 & C2)|(f & s & w & C1 & C3)]]; [left; exact C|right; left; exists f, s, b; split; [apply block_more; exact C1|exact C2]|right; right].
    exists f, s, w. split; [exact C1|].
    destruct C3 as [(b & D1 & D2)|[D1 D2]]; [left; exists b; split; [apply block_more; exact D1|exact D2]|right; split; [apply epoch_more; exact D1|exact D2]]. }
  destruct (Hseen i v' Hv) as [v A1 A2 A3 A4|f b v A0 A1 A2|f b A0 A1 A2|f v A0 A1 A2].
  - apply (G v A1). exact A4.
  - destruct (bl_cred _ _ _ _ _ _ _ A2) as (base & B1 & B2).
    assert (D : v_withdrawal_credentials v' = v_withdrawal_credentials v \/ (exists c, moves_credentials E f (snd p) b i v c) \/ asks_compounding E f b v).
    { destruct B2 as [B2|(B2 & _)]; [|auto]. destruct B1 as [B1|B1]; [left; congruence|eauto]. }
    destruct D as [D|D]; [apply (G v A1 D)|]. right. right. exists f, (snd p), v. split; [exact A1|]. left. exists b. auto.
  - right. left. exists f, (snd p), b. split; [exact A0|]. apply nthN_none. exact A1.
  - destruct (el_cred _ _ _ _ _ _ A2) as [B|(B & _)]; [apply (G v A1 B)|]. right. right. exists f, (snd p), v. split; [exact A1|]. right. auto.
Qed.
(** C110: once the credentials name an address (they start with 1 or 2), it stays, and so does the first byte unless it goes from 1 to 2 *)
Theorem C110_address_is_final (E : Env) p0 z l i v v' : ctx_sane E -> walk E p0 (z :: l) -> slot (snd z) < 2 ^ 64 - 1 ->
  nthN (validators (snd p0)) i = Some v -> nthN (validators (snd z)) i = Some v' ->
  nthN (v_withdrawal_credentials v) 0 = Some 1 \/ nthN (v_withdrawal_credentials v) 0 = Some 2 ->
  v_withdrawal_credentials v' = v_withdrawal_credentials v
  \/ (nthN (v_withdrawal_credentials v) 0 = Some 1 /\ v_withdrawal_credentials v' = 2 :: skipn 1 (v_withdrawal_credentials v)).
Proof.
  intros Hc Hw Hz Hv. revert v'. remember (z :: l) as w eqn:Ew. revert z l Ew Hz. induction Hw as [|p q l0 Hw IH Hs]; intros z l [= <- <-] Hz v' Hv' Hx; [left; congruence|].
  destruct (step_seen E p q l0 Hc Hs Hz) as (Hp & Hseen & _). specialize (IH p l0 eq_refl Hp).
  assert (L : forall c, nthN (2 :: c) 0 = Some 2) by reflexivity.
  assert (G : forall u, nthN (validators (snd p)) i = Some u ->
    (v_withdrawal_credentials v' = v_withdrawal_credentials u \/ (nthN (v_withdrawal_credentials u) 0 = Some 1 /\ v_withdrawal_credentials v' = 2 :: skipn 1 (v_withdrawal_credentials u))) ->
    v_withdrawal_credentials v' = v_withdrawal_credentials v \/ (nthN (v_withdrawal_credentials v) 0 = Some 1 /\ v_withdrawal_credentials v' = 2 :: skipn 1 (v_withdrawal_credentials v))).
  { intros u A B. destruct (IH u A Hx) as [C|[C1 C2]]; destruct B as [B|[B1 B2]].
    - left. congruence.
    - right. rewrite <- C. split; assumption.
    - right. split; [exact C1|congruence].
    - rewrite C2 in B1. rewrite L in B1. discriminate. }
  assert (I1 : forall u, nthN (validators (snd p)) i = Some u -> nthN (v_withdrawal_credentials u) 0 = Some 1 \/ nthN (v_withdrawal_credentials u) 0 = Some 2).
  { intros u A. destruct (IH u A Hx) as [C|[C1 C2]]; [rewrite C; exact Hx|right; rewrite C2; apply L]. }
  destruct (Hseen i v' Hv') as [u A1 A2 A3 A4|f b u A0 A1 A2|f b A0 A1 A2|f u A0 A1 A2].
  - apply (G u A1). left. exact A4.
  - apply (G u A1). destruct (bl_cred _ _ _ _ _ _ _ A2) as (base & B1 & B2).
    assert (base = v_withdrawal_credentials u); [|subst base; destruct B2 as [B2|(_ & B2 & B3)]; auto].
    destruct B1 as [B1|(op & _ & _ & _ & B1 & _)]; [exact B1|]. exfalso. destruct (I1 u A1) as [K|K]; congruence.
  - exfalso. destruct (walk_chain E Hc p0 (p :: l0) Hw p (or_introl eq_refl)) as [Hch _]. apply chain_history, history_across in Hch as [Hch _].
    destruct (Hch _ _ Hv) as (u & Hu & _). apply nthN_some in Hu. lia.
  - apply (G u A1). destruct (el_cred _ _ _ _ _ _ A2) as [B|(_ & B)]; auto.
Qed.
(** C110: whatever waits in the queue of consolidations was there at the start, or a block of the chain asks for it with the signatures of both validators *)
Theorem C110_consolidations_are_signed (E : Env) p0 z l c : ctx_sane E -> walk E p0 (z :: l) -> slot (snd z) < 2 ^ 64 - 1 ->
  In c (pending_consolidations (snd z)) ->
  In c (pending_consolidations (snd p0))
  \/ exists f s b, passes_block E (z :: l) f s b /\ asks_consolidation E f s b (pc_source_index c) (pc_target_index c).
Proof.
  intros Hc Hw. remember (z :: l) as w eqn:Ew. revert z l Ew. induction Hw as [|p q l0 Hw IH Hs]; intros z l [= <- <-] Hz Hi; [left; exact Hi|].
  destruct (step_seen E p q l0 Hc Hs Hz) as (Hp & _ & Hq). destruct (Hq c Hi) as [A|(f & b & A1 & A2)]; [|right; exists f, (snd p), b; auto].
  destruct (IH p l0 eq_refl Hp A) as [B|(f & s & b & B1 & B2)]; [left; exact B|]. right. exists f, s, b. split; [apply block_more; exact B1|exact B2].
Qed.

(** ** Examples: one-step chains on which each of these things happens *)
Definition with_ops (b : BeaconBlock) ps ve bc cn : BeaconBlock :=
  let body := bk_body b in
  mkBlock (bk_slot b) (bk_proposer_index b) (bk_parent_root b) (bk_state_root b)
    (mkBody (bb_randao_reveal body) (bb_eth1_data body) (bb_graffiti body) ps [] [] [] ve (bb_sync_aggregate body) (bb_execution_payload body) bc [] cn).
Lemma one_block (E : Env) f s b : walk E (f, s) [(f, snd (process_block E f b s)); (f, s)].
Proof. apply walk_step; [apply walk_start|]. eapply step_block. apply surjective_pairing. Qed.
Definition guilty_block (f : Fork) : BeaconBlock := with_ops (tiny_block slash_toy 1) [toy_proposer_slashing 3] [PropsOps.toy_exit f slash_toy 2] [] [].
Example C108_example : let t := snd (process_block tiny Capella (guilty_block Capella) slash_toy) in
  ctx_sane tiny /\ walk tiny (Capella, slash_toy) [(Capella, t); (Capella, slash_toy)] /\ slot t < 2 ^ 64 - 1
  /\ fst (process_block tiny Capella (guilty_block Capella) slash_toy) = Ok tt
  /\ map v_slashed (validators slash_toy) = [false; false; false; false] /\ map v_slashed (validators t) = [false; false; false; true].
Proof. cbv zeta. split; [exact tiny_sane|]. split; [apply one_block|]. vm_compute. repeat split. Qed.
Example C109_example : let t := snd (process_block tiny Capella (guilty_block Capella) slash_toy) in
  ctx_sane tiny /\ walk tiny (Capella, slash_toy) [(Capella, t); (Capella, slash_toy)] /\ slot t < 2 ^ 64 - 1
  /\ map v_exit_epoch (validators slash_toy) = repeat FAR_FUTURE_EPOCH 4 /\ map v_exit_epoch (validators t) = [FAR_FUTURE_EPOCH; FAR_FUTURE_EPOCH; 8; 8]
  /\ (let e := snd (process_slots tiny Phase0 (slot toy_ejectable + 1) toy_ejectable) in
      process_slots tiny Phase0 (slot toy_ejectable + 1) toy_ejectable = (Ok tt, e) /\ (slot toy_ejectable + 1) mod SLOTS_PER_EPOCH tiny = 0
      /\ nthN (validators toy_ejectable) 2 = Some (set_v_effective_balance 16000000000 (toy_validator 2))
      /\ ejected tiny toy_ejectable (set_v_effective_balance 16000000000 (toy_validator 2)) /\ option_map v_exit_epoch (nthN (validators e) 2) = Some 5).
Proof.
  cbv zeta. split; [exact tiny_sane|]. split; [apply one_block|]. split; [vm_compute; reflexivity|]. split; [vm_compute; reflexivity|]. split; [vm_compute; reflexivity|].
  split; [|split; [vm_compute; reflexivity|]; split; [vm_compute; reflexivity|]; split; [split; vm_compute; congruence|vm_compute; reflexivity]].
  vm_compute. reflexivity.
Qed.
Definition move_block : BeaconBlock := with_ops (tiny_block bls_toy 1) [] [] [bls_toy_op] [].
(** a valid consolidation makes a build with overflow checks panic (C57), so this one is for a build without them *)
Definition merge_block : BeaconBlock := with_ops (tiny_block churn_toy 2) [] [] [] [consolidation_op].
Example C110_example : let t := snd (process_block tiny Capella move_block bls_toy) in
  let u := snd (process_block tiny_release Electra merge_block churn_toy) in
  ctx_sane tiny /\ walk tiny (Capella, bls_toy) [(Capella, t); (Capella, bls_toy)] /\ slot t < 2 ^ 64 - 1
  /\ option_map v_withdrawal_credentials (nthN (validators t) 2) = Some (1 :: repeat 0 11 ++ repeat 6 20)
  /\ option_map (fun v => nthN (v_withdrawal_credentials v) 0) (nthN (validators bls_toy) 2) = Some (Some 0)
  /\ ctx_sane tiny_release /\ walk tiny_release (Electra, churn_toy) [(Electra, u); (Electra, churn_toy)] /\ slot u < 2 ^ 64 - 1
  /\ pending_consolidations churn_toy = [] /\ pending_consolidations u = [mkPC 3 0]
  /\ option_map (fun v => nthN (v_withdrawal_credentials v) 0) (nthN (validators churn_toy) 0) = Some (Some 2).
Proof.
  cbv zeta. split; [exact tiny_sane|]. split; [apply one_block|]. split; [vm_compute; reflexivity|]. split; [vm_compute; reflexivity|]. split; [vm_compute; reflexivity|].
  split; [exact tiny_sane|]. split; [apply one_block|]. vm_compute. repeat split.
Qed.

Print Assumptions C108_block.
Print Assumptions C108_slot.
Print Assumptions C108_only_the_guilty_are_slashed.
Print Assumptions C109_block.
Print Assumptions C109_slot.
Print Assumptions C109_nobody_exits_without_cause.
Print Assumptions C110_block.
Print Assumptions C110_slot.
Print Assumptions C110_credentials_change_only_on_request.
Print Assumptions C110_address_is_final.
Print Assumptions C110_consolidations_are_signed.
