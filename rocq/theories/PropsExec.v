(** * Property theorems: block application, validation and the executor *)
From Verif Require Import Base BaseLemmas Types Ctx Env Helpers HelpersAltair HelpersElectra Block Epoch Transition Upgrade Executor StLemmas Frame
  SpecCommon SpecShuffle SpecHelpers SpecOps SpecBlock SpecSlots SpecClock SpecExec
  HelperProofs HelperProofs2 OpsProofs BlockProofs SlotProofs ToyCtx Toy Toy2 Toy3 PropsBlock.

Lemma block_signature_iff (E : Env) f s sb : ctx_sane E -> verify_block_signature E f s sb = Ok tt <-> block_signed E f s sb.
Proof.
  intros Hc. unfold verify_block_signature, block_signed, signed_by. split.
  - intros H. apply rbind_ok_inv in H as (v & Hv & H). apply rbind_ok_inv in H as (d & Hd & H). apply getN_ok in Hv. apply (get_domain_none E s DBeaconProposer d Hc) in Hd.
    apply verify_signed_data_ok in H as (root & H1 & H2). exists v. split; [exact Hv|]. exists d, root. auto.
  - intros (v & Hv & d & root & Hd & H1 & H2). rewrite (proj2 (getN_ok _ _ _ _) Hv). cbn [rbind]. rewrite (proj2 (get_domain_none E s DBeaconProposer d Hc) Hd). cbn [rbind].
    apply verify_signed_data_ok. eauto.
Qed.
Lemma announces_iff E f sb s :
  (let! root := htr_r E (OState f s) in require (bytes_eqb (bk_state_root (sb_message sb)) root) EInvalidStateRoot) = Ok tt <-> announces E f sb s.
Proof.
  unfold announces, htr_r. destruct (htr E (OState f s)) as [r|]; cbn [ok_or rbind]; [|split; discriminate]. rewrite require_ok, bytes_eqb_true. split; [intros ->; reflexivity|intros [= ->]; reflexivity].
Qed.

(** ** C62: full validation *)
(** Validated processing succeeds exactly when unvalidated processing does, the proposer's signature is valid on the state at the block's
    slot, and the block announces the root of the resulting state; the results are the same. *)
Theorem C62_block_in_slot : forall (E : Env) (f : Fork) (sb : SignedBeaconBlock) (s s' : BeaconState), ctx_sane E ->
  state_transition_block_in_slot E f true sb s = (Ok tt, s')
  <-> block_signed E f s sb /\ state_transition_block_in_slot E f false sb s = (Ok tt, s') /\ announces E f sb s'.
Proof.
  intros E f sb s s' Hc. unfold state_transition_block_in_slot, swhen. split.
  - intros H. apply sbind_ok_inv in H as ([] & s1 & H1 & H). apply inv_rd in H1 as [H1 ->]. apply sbind_ok_inv in H as ([] & s2 & H2 & H). apply inv_rd in H as [H3 ->].
    split; [apply block_signature_iff; assumption|]. split; [|apply announces_iff; exact H3].
    rewrite (run_bind (sret tt) _ s tt s eq_refl). rewrite (run_bind _ _ _ _ _ H2). reflexivity.
  - intros (H1 & H2 & H3). rewrite (run_bind (sret tt) _ s tt s eq_refl) in H2. apply sbind_ok_inv in H2 as ([] & s2 & H2 & Hx). injection Hx as <-.
    rewrite (run_rd _ _ _ tt) by (apply block_signature_iff; assumption). rewrite (run_bind _ _ _ _ _ H2). unfold rd. f_equal. apply announces_iff; exact H3.
Qed.
Theorem C62_state_transition : forall (E : Env) (f : Fork) (sb : SignedBeaconBlock) (s s' : BeaconState), ctx_sane E ->
  state_transition E f true sb s = (Ok tt, s')
  <-> exists s1, process_slots E f (bk_slot (sb_message sb)) s = (Ok tt, s1) /\ block_signed E f s1 sb
        /\ state_transition E f false sb s = (Ok tt, s') /\ announces E f sb s'.
Proof.
  intros E f sb s s' Hc. unfold state_transition. split.
  - intros H. apply sbind_ok_inv in H as ([] & s1 & H1 & H). apply (C62_block_in_slot E f sb s1 s' Hc) in H as (A & B & C). exists s1.
    split; [exact H1|]. split; [exact A|]. split; [rewrite (run_bind _ _ _ _ _ H1); exact B|exact C].
  - intros (s1 & H1 & A & B & C). rewrite (run_bind _ _ _ _ _ H1). rewrite (run_bind _ _ _ _ _ H1) in B. apply (C62_block_in_slot E f sb s1 s' Hc). auto.
Qed.
(** Without validation only block processing decides. *)
Theorem C62_disabled : forall (E : Env) (f : Fork) (sb : SignedBeaconBlock) (s s1 s' : BeaconState),
  process_slots E f (bk_slot (sb_message sb)) s = (Ok tt, s1) ->
  state_transition E f false sb s = (Ok tt, s') <-> process_block E f (sb_message sb) s1 = (Ok tt, s').
Proof.
  intros E f sb s s1 s' H1. unfold state_transition. rewrite (run_bind _ _ _ _ _ H1). unfold state_transition_block_in_slot, swhen.
  rewrite (run_bind (sret tt) _ s1 tt s1 eq_refl). split.
  - intros H. apply sbind_ok_inv in H as ([] & s2 & H & Hx). injection Hx as <-. exact H.
  - intros H. rewrite (run_bind _ _ _ _ _ H). reflexivity.
Qed.

(** ** C61: failed blocks and the state *)
(** A bad signature is noticed before anything is changed, when the state is already at the block's slot.  Missing: every other failure,
    see the theorems below. *)
Theorem C61_bad_signature_partial : forall (E : Env) (f : Fork) (sb : SignedBeaconBlock) (s : BeaconState), ctx_sane E ->
  ~ block_signed E f s sb -> rejected (state_transition_block_in_slot E f true sb) s.
Proof.
  intros E f sb s Hc Hn. unfold state_transition_block_in_slot, swhen. apply guard_rejects, not_ok. intros [] H. apply Hn, (block_signature_iff E f s sb Hc), H.
Qed.
(** When slots have to be processed first, any later failure leaves the state at the block's slot. *)
Theorem C61_slots_kept_refuted : forall (E : Env) (f : Fork) (sb : SignedBeaconBlock) (s s1 : BeaconState), ctx_sane E -> bk_slot (sb_message sb) < 2 ^ 64 ->
  process_slots E f (bk_slot (sb_message sb)) s = (Ok tt, s1) -> ~ block_signed E f s1 sb ->
  is_ok (fst (state_transition E f true sb s)) = false /\ snd (state_transition E f true sb s) = s1 /\ slot s < slot s1.
Proof.
  intros E f sb s s1 Hc Hb H1 Hn. destruct (process_slots_ok E Hc f _ _ _ Hb H1) as [Hs Hlt]. unfold state_transition. rewrite (run_bind _ _ _ _ _ H1).
  destruct (C61_bad_signature_partial E f sb s1 Hc Hn) as [A B]. split; [exact A|]. split; [exact B|lia].
Qed.
(** A block that fails after its header was accepted blocks its slot: no block is accepted on the state it leaves behind. *)
Theorem C61_slot_blocked_refuted : forall (E : Env) (f g : Fork) (b b' : BeaconBlock) (s : BeaconState),
  fst (process_block_header E f b s) = Ok tt -> is_ok (fst (process_block E f b s)) = false ->
  rejected (process_block E g b') (snd (process_block E f b s)).
Proof. intros E f g b b' s Hh _. exact (proj2 (C22_one_block_per_slot E f g b b' [] s _ _ Hh eq_refl eq_refl)). Qed.

(** ** C60: the executor *)
Lemma to_next_fork_run (E : Env) g s t s1 : next_fork g <> Electra -> activation E (next_fork g) * SLOTS_PER_EPOCH E < 2 ^ 64 ->
  t = activation E (next_fork g) * SLOTS_PER_EPOCH E ->
  (to_next_fork E g s = (Ok tt, s1) <-> process_slots E g t s = (Ok tt, s1)).
Proof.
  intros Hg Hb ->. unfold to_next_fork. replace (fork_epoch E (next_fork g)) with (activation E (next_fork g)) by (destruct g; reflexivity).
  unfold mul, umul. change U64 with (2 ^ 64). rewrite (proj2 (N.ltb_lt _ _) Hb). rewrite (run_lift _ _ _ _ eq_refl). reflexivity.
Qed.
Definition fork_slots_fit (E : Env) : Prop := forall f, supported f -> activation E f * SLOTS_PER_EPOCH E < 2 ^ 64.
Lemma chain_passes (E : Env) : fork_slots_fit E -> forall n g s t, fork_num g + N.of_nat n <= 4 ->
  chain E n g s = Ok t <-> exists f, fork_num f = fork_num g + N.of_nat n /\ passes E g s f t.
Proof.
  intros Hfit n. induction n as [|n IH]; intros g s t Hn.
  - cbn [chain]. split.
    + intros [= <-]. exists g. split; [lia|constructor].
    + intros (f & Hf & Hp). f_equal. inversion Hp; subst; [reflexivity|exfalso..].
      all: match goal with H : passes _ ?a _ ?b _ |- _ => assert (fork_num a <= fork_num b) by (clear - H; induction H; cbn [fork_num] in *; lia) end; cbn [fork_num] in *; lia.
  - cbn [chain]. assert (Hmono : forall a x b y, passes E a x b y -> fork_num a <= fork_num b) by (intros a x b y H; induction H; cbn [fork_num] in *; lia).
    assert (Hg : next_fork g <> Electra) by (destruct g; cbn [fork_num next_fork] in *; try discriminate; lia).
    assert (Hnum : fork_num (next_fork g) = fork_num g + 1) by (destruct g; cbn [fork_num next_fork] in *; try reflexivity; lia).
    pose proof (Hfit (next_fork g) Hg) as Hb.
    assert (Hstep : forall f, passes E g s f t -> fork_num f = fork_num g + N.of_nat (S n) ->
      exists s1 s2, process_slots E g (activation E (next_fork g) * SLOTS_PER_EPOCH E) s = (Ok tt, s1) /\ upgrade_to E (next_fork g) s1 = Ok s2 /\ passes E (next_fork g) s2 f t).
    { intros f Hp Hf. inversion Hp; subst; cbn [next_fork upgrade_to] in *; [exfalso; lia| | | |]; eauto 6. }
    assert (Hback : forall f s1 s2, process_slots E g (activation E (next_fork g) * SLOTS_PER_EPOCH E) s = (Ok tt, s1) -> upgrade_to E (next_fork g) s1 = Ok s2 -> passes E (next_fork g) s2 f t -> passes E g s f t).
    { intros f s1 s2 A B C. destruct g; cbn [next_fork upgrade_to] in *; try (exfalso; cbn [fork_num] in *; lia); [eapply passes_altair|eapply passes_bellatrix|eapply passes_capella|eapply passes_deneb]; eassumption. }
    destruct (to_next_fork E g s) as [r s1] eqn:Hto. split.
    + intros H. apply rbind_ok_inv in H as ([] & -> & H). apply rbind_ok_inv in H as (s2 & H2 & H). apply IH in H as (f & Hf & Hp); [|lia].
      exists f. split; [lia|]. eapply Hback; [apply (to_next_fork_run E g s _ s1 Hg Hb eq_refl); exact Hto|exact H2|exact Hp].
    + intros (f & Hf & Hp). destruct (Hstep f Hp Hf) as (s1' & s2 & A & B & C). apply (to_next_fork_run E g s _ s1' Hg Hb eq_refl) in A. rewrite Hto in A. injection A as -> ->.
      cbn [rbind]. rewrite B. cbn [rbind]. apply IH; [lia|]. exists f. split; [lia|exact C].
Qed.
Lemma fork_num_inj f g : fork_num f = fork_num g -> f = g. Proof. destruct f, g; cbn [fork_num]; intros; try reflexivity; lia. Qed.
(** The executor accepts a block exactly when its state passes all fork boundaries up to the block's fork, each at its slot, and the block
    applies in that fork; the new state has the block's fork. *)
Theorem C60_forks : forall (E : Env) (f g f' : Fork) (validate : bool) (sb : SignedBeaconBlock) (s s' : BeaconState),
  supported f -> fork_slots_fit E ->
  apply_block_with_validation E f validate sb (g, s) = (Ok tt, (f', s'))
  <-> f' = f /\ exists t, passes E g s f t /\ block_applied E f validate (negb (fork_num f =? fork_num g)) sb t s'.
Proof.
  intros E f g f' validate sb s s' Hf Hfit. unfold apply_block_with_validation.
  assert (Hf4 : fork_num f <= 4) by (destruct f; cbn [fork_num]; try lia; exfalso; apply Hf; reflexivity).
  assert (Hmono : forall a x b y, passes E a x b y -> fork_num a <= fork_num b) by (intros a x b y H; induction H; cbn [fork_num] in *; lia).
  destruct (N.ltb_spec (fork_num f) (fork_num g)) as [Hlt|Hge].
  - split; [discriminate|]. intros (-> & t & Hp & _). apply Hmono in Hp. lia.
  - destruct (N.eqb_spec (fork_num f) (fork_num g)) as [He|Hne].
    + apply fork_num_inj in He. subst g. cbn [negb]. unfold block_applied. cbn [andb]. destruct (state_transition E f validate sb s) as [r s1] eqn:Hst. split.
      * intros [= -> <- <-]. split; [reflexivity|]. exists s. split; [constructor|exact Hst].
      * intros (-> & t & Hp & Ht). assert (t = s).
        { inversion Hp; subst; [reflexivity|exfalso..]; match goal with H : passes _ _ _ _ _ |- _ => apply Hmono in H; cbn [fork_num] in H; lia end. }
        subst t. rewrite Hst in Ht. injection Ht as -> ->. reflexivity.
    + cbn [negb]. destruct (to_next_fork E g s) as [r0 s1] eqn:Hto.
      pose proof (chain_passes E Hfit (N.to_nat (fork_num f - fork_num g)) g s) as Hch.
      set (n := (N.to_nat (fork_num f - fork_num g) - 1)%nat) in *. replace (N.to_nat (fork_num f - fork_num g)) with (S n) in Hch by lia.
      cbn [chain] in Hch. rewrite Hto in Hch.
      assert (Hmid : forall t, (let! _ := r0 in let! s2 := upgrade_to E (next_fork g) s1 in chain E n (next_fork g) s2) = Ok t <-> passes E g s f t).
      { intros t. rewrite (Hch t ltac:(lia)). split.
        - intros (f0 & Hn & Hp). replace f with f0; [exact Hp|]. apply fork_num_inj. lia.
        - intros Hp. exists f. split; [lia|exact Hp]. }
      assert (Happ : forall t x, apply_after_upgrade E f validate sb t = Ok x <-> block_applied E f validate true sb t x).
      { intros t x. unfold apply_after_upgrade, block_applied. cbn [andb]. destruct (bk_slot (sb_message sb) =? slot t).
        - destruct (state_transition_block_in_slot E f validate sb t) as [[[]| | |] y]; cbn [rbind]; split; try discriminate; intros [= ->]; reflexivity.
        - destruct (state_transition E f validate sb t) as [[[]| | |] y]; cbn [rbind]; split; try discriminate; intros [= ->]; reflexivity. }
      set (out := let! _ := r0 in _).
      assert (Hout : forall x, out = Ok x <-> exists t, passes E g s f t /\ block_applied E f validate true sb t x).
      { intros x. subst out. split.
        - intros H. apply rbind_ok_inv in H as (u & -> & H). apply rbind_ok_inv in H as (s2 & H2 & H). apply rbind_ok_inv in H as (t & H3 & H). exists t.
          split; [apply Hmid; cbn [rbind]; rewrite H2; exact H3|apply Happ; exact H].
        - intros (t & Hp & Ht). apply Hmid in Hp. apply rbind_ok_inv in Hp as (u & -> & Hp). apply rbind_ok_inv in Hp as (s2 & H2 & H3).
          cbn [rbind]. rewrite H2. cbn [rbind]. rewrite H3. apply Happ. exact Ht. }
      split.
      * destruct out as [x| | |] eqn:Ho; try discriminate. intros [= <- <-]. split; [reflexivity|]. apply Hout. reflexivity.
      * intros (-> & Hx). apply Hout in Hx. rewrite Hx. reflexivity.
Qed.
(** A block of an earlier fork is refused, and nothing changes. *)
Theorem C60_no_earlier_fork : forall (E : Env) (f g : Fork) (validate : bool) (sb : SignedBeaconBlock) (s : BeaconState),
  fork_num f < fork_num g -> apply_block_with_validation E f validate sb (g, s) = (Err EInvalidForkTransition, (g, s)).
Proof. intros E f g validate sb s H. unfold apply_block_with_validation. rewrite (proj2 (N.ltb_lt _ _) H). reflexivity. Qed.
(** Passing a boundary happens at its slot: on success every fork in between was reached in order. *)
Theorem C60_boundary_slots : forall (E : Env) (g f : Fork) (s t : BeaconState), ctx_sane E -> fork_slots_fit E -> supported f ->
  passes E g s f t -> g <> f -> slot t = activation E f * SLOTS_PER_EPOCH E /\ slot s < activation E (next_fork g) * SLOTS_PER_EPOCH E.
Proof.
  intros E g f s t Hc Hfit Hf Hp. 
  assert (Hup : forall h s1 s2, h = Altair \/ h = Bellatrix \/ h = Capella \/ h = Deneb -> upgrade_to E h s1 = Ok s2 -> slot s2 = slot s1).
  { intros h s1 s2 [->|[->|[->| ->]]] H; cbn [upgrade_to] in H.
    - unfold upgrade_to_altair in H. rinv H; try (match goal with H : translate_participation _ _ _ = Ok _ |- _ => unfold translate_participation in H; rinv H end); subst; reflexivity.
    - unfold upgrade_to_bellatrix in H. rinv H. subst. reflexivity.
    - unfold upgrade_to_capella in H. rinv H. subst. reflexivity.
    - unfold upgrade_to_deneb in H. rinv H. subst. reflexivity. }
  induction Hp as [g s|s s1 s2 f t H1 H2 Hp IH|s s1 s2 f t H1 H2 Hp IH|s s1 s2 f t H1 H2 Hp IH|s s1 s2 f t H1 H2 Hp IH]; intros Hne; [contradiction|..].
  all: match type of H1 with process_slots _ ?g0 (activation _ ?h * _) _ = _ =>
      destruct (process_slots_ok E Hc g0 _ _ _ (Hfit h ltac:(discriminate)) H1) as [Hs1 Hlt]; cbn [next_fork]; split; [|exact Hlt];
      pose proof (Hup h s1 s2 ltac:(auto) H2) as Hs2;
      destruct (N.eq_dec (fork_num h) (fork_num f)) as [He|Hn];
      [apply fork_num_inj in He; subst f; inversion Hp; subst; [congruence|exfalso..];
         match goal with H : passes _ ?a _ ?b _ |- _ => assert (fork_num a <= fork_num b) by (clear - H; induction H; cbn [fork_num] in *; lia) end; cbn [fork_num] in *; lia
      |apply IH; [exact Hf|intros Hx; apply Hn; rewrite <- Hx; reflexivity]] end.
Qed.
(** But a state that is already at or past the next fork's slot can never leave its fork: every block of a later fork is refused. This
    includes every genesis state of a network whose next fork is configured at epoch 0. *)
Theorem C60_at_fork_slot_refuted : forall (E : Env) (f g : Fork) (validate : bool) (sb : SignedBeaconBlock) (s : BeaconState),
  supported f -> fork_num g < fork_num f -> activation E (next_fork g) * SLOTS_PER_EPOCH E < 2 ^ 64 -> activation E (next_fork g) * SLOTS_PER_EPOCH E <= slot s ->
  apply_block_with_validation E f validate sb (g, s) = (Err ETransitionToPreviousSlot, (g, s)).
Proof.
  intros E f g validate sb s Hf Hlt Hb Hle. unfold apply_block_with_validation.
  rewrite (proj2 (N.ltb_ge _ _)) by lia. rewrite (proj2 (N.eqb_neq _ _)) by lia.
  assert (Hto : to_next_fork E g s = (Err ETransitionToPreviousSlot, s)).
  { unfold to_next_fork. replace (fork_epoch E (next_fork g)) with (activation E (next_fork g)) by (destruct g; reflexivity).
    unfold mul, umul. change U64 with (2 ^ 64). rewrite (proj2 (N.ltb_lt _ _) Hb). rewrite (run_lift _ _ _ _ eq_refl).
    unfold process_slots. rewrite (run_rd _ _ s (slot s)) by reflexivity. rewrite (proj2 (N.leb_le _ _) Hle). reflexivity. }
  rewrite Hto. reflexivity.
Qed.
(** Hence an invalid block can stop the executor for good: if a block of a later fork fails after the boundary was reached, the state stays
    at the boundary slot in the old fork, and all further blocks of later forks are refused. *)
Theorem C61_executor_stuck_refuted : forall (E : Env) (f g : Fork) (validate : bool) (sb : SignedBeaconBlock) (s s1 : BeaconState),
  ctx_sane E -> supported f -> fork_num g < fork_num f -> activation E (next_fork g) * SLOTS_PER_EPOCH E < 2 ^ 64 ->
  process_slots E g (activation E (next_fork g) * SLOTS_PER_EPOCH E) s = (Ok tt, s1) ->
  is_ok (fst (apply_block_with_validation E f validate sb (g, s))) = false ->
  snd (apply_block_with_validation E f validate sb (g, s)) = (g, s1) /\ slot s < slot s1
  /\ forall f2 validate2 sb2, supported f2 -> fork_num g < fork_num f2 ->
       apply_block_with_validation E f2 validate2 sb2 (g, s1) = (Err ETransitionToPreviousSlot, (g, s1)).
Proof.
  intros E f g validate sb s s1 Hc Hf Hlt Hb Hps Hno. destruct (process_slots_ok E Hc g _ _ _ Hb Hps) as [Hs1 Hs].
  assert (Hg : next_fork g <> Electra) by (destruct f, g; cbn [fork_num next_fork] in *; try discriminate; try lia; exfalso; apply Hf; reflexivity).
  split; [|split; [lia|intros f2 v2 sb2 H1 H2; apply C60_at_fork_slot_refuted; try assumption; lia]].
  unfold apply_block_with_validation in *. rewrite (proj2 (N.ltb_ge _ _)) in * by lia. rewrite (proj2 (N.eqb_neq _ _)) in * by lia.
  rewrite (proj2 (to_next_fork_run E g s _ s1 Hg Hb eq_refl) Hps) in *.
  match goal with |- snd (match ?o with _ => _ end) = _ => destruct o as [x| | |] end; [discriminate Hno|reflexivity..].
Qed.

(** ** Concrete cases *)
(** the block of proposer [p] at the slot of [s] in fork [f], with the root of the resulting state and the proposer's signature *)
Definition tiny_rooted (f : Fork) (s : BeaconState) (p : N) : BeaconBlock :=
  let b := tiny_block s p in
  mkBlock (bk_slot b) (bk_proposer_index b) (bk_parent_root b)
    (match htr tiny (OState f (snd (process_block tiny f b s))) with Some r => r | None => [] end) (bk_body b).
Definition tiny_signed (f : Fork) (s : BeaconState) (b : BeaconBlock) (p : N) : SignedBeaconBlock :=
  mkSignedBlock b (tiny_signature s DBeaconProposer (epoch_of tiny s) (OBlock f b) p).
Definition exec_at (f : Fork) (sl : N) (s : BeaconState) : BeaconState := snd (process_slots tiny f sl s).
Definition exec_block (f : Fork) (s : BeaconState) : SignedBeaconBlock :=
  let p := match get_beacon_proposer_index tiny s with Ok p => p | _ => 0 end in tiny_signed f s (tiny_rooted f s p) p.

(** a signed block, one slot after the state, is accepted with validation on, and its effect is visible *)
Example C62_example :
  let s := tiny_state 4 13 in
  let sb := exec_block Phase0 (exec_at Phase0 14 s) in
  let '(r, s') := state_transition tiny Phase0 true sb s in
  r = Ok tt /\ slot s' = 14 /\ bh_slot (latest_block_header s') = 14
  /\ fst (state_transition tiny Phase0 true (mkSignedBlock (sb_message sb) zero32) s) = Err EBls.
Proof. vm_compute. auto. Qed.
(** C61: a block at slot 14 whose randao reveal is wrong is refused after its header was stored, then the good block is refused as well *)
Example C61_example :
  let s1 := exec_at Phase0 14 (tiny_state 4 13) in
  let good := sb_message (exec_block Phase0 s1) in
  let bad := mkBlock (bk_slot good) (bk_proposer_index good) (bk_parent_root good) (bk_state_root good)
    (mkBody zero32 (bb_eth1_data (bk_body good)) zero32 [] [] [] [] [] (bb_sync_aggregate (bk_body good)) (bb_execution_payload (bk_body good)) [] [] []) in
  fst (process_block tiny Phase0 good s1) = Ok tt
  /\ fst (process_block_header tiny Phase0 bad s1) = Ok tt
  /\ is_ok (fst (process_block tiny Phase0 bad s1)) = false
  /\ is_ok (fst (process_block tiny Phase0 good (snd (process_block tiny Phase0 bad s1)))) = false.
Proof. vm_compute. auto. Qed.
(** C60: a phase0 state at slot 3 takes an altair block at slot 5 (altair starts at slot 4); a bad block at slot 5 leaves it stuck at slot 4 *)
Example C60_example :
  let s := tiny_state 4 3 in
  let at_fork := match upgrade_to_altair tiny (exec_at Phase0 4 s) with Ok t => t | _ => s end in
  let sb := exec_block Altair (exec_at Altair 5 at_fork) in
  let '(r, (f', s')) := apply_block tiny Altair sb (Phase0, s) in
  let stuck := apply_block tiny Altair (mkSignedBlock (sb_message sb) zero32) (Phase0, s) in
  r = Ok tt /\ f' = Altair /\ slot s' = 5
  /\ fst stuck = Err EBls /\ fst (snd stuck) = Phase0 /\ slot (snd (snd stuck)) = 4
  /\ fst (apply_block tiny Altair sb (snd stuck)) = Err ETransitionToPreviousSlot.
Proof. vm_compute. auto 10. Qed.
Lemma tiny_fork_slots : fork_slots_fit tiny. Proof. intros f _. destruct f; vm_compute; reflexivity. Qed.

Print Assumptions C62_block_in_slot.
Print Assumptions C62_state_transition.
Print Assumptions C62_disabled.
Print Assumptions C61_bad_signature_partial.
Print Assumptions C61_slots_kept_refuted.
Print Assumptions C61_slot_blocked_refuted.
Print Assumptions C60_forks.
Print Assumptions C60_no_earlier_fork.
Print Assumptions C60_boundary_slots.
Print Assumptions C60_at_fork_slot_refuted.
Print Assumptions C61_executor_stuck_refuted.
