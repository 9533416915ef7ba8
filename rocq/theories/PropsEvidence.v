(** * C103: evidence stays usable: votes that verified once still verify, and whoever signed two conflicting ones can be slashed *)
From Verif Require Import Base BaseLemmas Types Ctx Env Presets Helpers HelpersAltair HelpersElectra Block Epoch Transition Upgrade Genesis StLemmas
  SpecCommon SpecRegistry SpecHelpers SpecElectra SpecOps SpecAtt SpecHistory SpecFinality SpecEvidence SpecSafety SpecUpgrade
  Frame FrameProofs HelperProofs HelperProofs2 HistoryProofs OpsProofs PropsOps FinalityProofs VoteProofs PropsVotes SafetyProofs SafetyChain
  PropsUpgrade Toy Toy2 ToyPairCtx ToyPair PropsSafety.

(** a vote that verified in one state verifies in every other state that knows the same keys, the same genesis and the same fork version *)
Theorem C103_evidence_travels : forall (E : Env) (t s : BeaconState) (ia : IndexedAttestation),
  indexed_valid E t ia -> same_signers t s ia -> genesis_validators_root s = genesis_validators_root t ->
  version_at s (cp_epoch (ad_target (ia_data ia))) = version_at t (cp_epoch (ad_target (ia_data ia))) -> indexed_valid E s ia.
Proof.
  intros E t s ia (V1 & V2 & pks & dom & root & V3 & V4 & V5) HS HG HV. split; [exact V1|]. split; [exact V2|]. exists pks, dom, root.
  split; [|rewrite HG, HV; split; [exact V4|exact V5]]. unfold same_signers in HS. clear - V3 HS. induction V3 as [|x y l l' (v & A1 & A2) _ IH]; constructor.
  - destruct (HS x v (or_introl eq_refl) A1) as (w & B1 & B2). exists w. split; [exact B1|congruence].
  - apply IH. intros i v' Hi. apply HS. right. exact Hi.
Qed.

(** ** what a chain keeps *)
Definition idk (s t : BeaconState) : Prop := fork t = fork s /\ genesis_validators_root t = genesis_validators_root s.
Lemma idk_refl s : idk s s. Proof. split; reflexivity. Qed.
Lemma idk_trans a b c : idk a b -> idk b c -> idk a c. Proof. intros [A1 A2] [B1 B2]. split; congruence. Qed.
Lemma idk_mod i g : pres idk (mod_validator i g).
Proof. intros s. unfold mod_validator, sbind, rd, md. destruct (idx _ _); cbn [snd]; try apply idk_refl. split; reflexivity. Qed.
Lemma idk_finish (E : Env) : pres idk (electra_finish E).
Proof.
  unfold electra_finish, queue_entire_balance_and_reset_validator, queue_excess_active_balance.
  repeat first [apply pres_bind; [exact idk_trans| |intros] | apply pres_rd; exact idk_refl | apply pres_lift; exact idk_refl
    | apply pres_for; [exact idk_refl|exact idk_trans|intros] | apply idk_mod | apply pres_if | apply pres_ret; exact idk_refl
    | apply pres_md; intros; split; reflexivity].
Qed.
Definition forkrel (p q : Fork * BeaconState) : Prop :=
  genesis_validators_root (snd q) = genesis_validators_root (snd p) /\ fork_num (fst p) <= fork_num (fst q)
  /\ (fork_num (fst q) = fork_num (fst p) -> fork (snd q) = fork (snd p))
  /\ (fork_num (fst q) = fork_num (fst p) + 1 -> fk_previous_version (fork (snd q)) = fk_current_version (fork (snd p))).
Lemma forkrel_call (E : Env) p q : call E p q -> forkrel p q.
Proof.
  intros H. assert (Hin : HistoryProofs.in_fork E p q -> forkrel p q).
  { intros [Hf He]. destruct (frame_identity E (fst p) _ _ He) as (_ & G & K). unfold forkrel. rewrite Hf. split; [exact G|]. split; [lia|]. split; [auto|lia]. }
  destruct (call_cases E p q H) as [Hc|_]; [apply Hin; exact Hc|].
  inversion H; subst; try (apply Hin; match goal with H : ?x = (_, ?t) |- HistoryProofs.in_fork E (?f, ?s) (_, ?t) => split; [reflexivity|]; cbn [fst snd] end).
  - pose proof (evpa_transition E f validate sb s) as P. rewrite H0 in P. exact P.
  - pose proof (evpa_block_in_slot E f validate sb s) as P. rewrite H0 in P. exact P.
  - pose proof (evpa_slots E f target s) as P. rewrite H0 in P. exact P.
  - pose proof (evpa_of E f LBlock _ (evp_block E f b) s) as P. rewrite H0 in P. exact P.
  - pose proof (evpa_of E f (LEpoch true) _ (evp_epoch E f) s) as P. rewrite H0 in P. exact P.
  - unfold upgrade_to_altair in H0. apply rbind_ok_inv in H0 as (e & _ & H0). apply rbind_ok_inv in H0 as (post & Hp & H0).
    unfold translate_participation in Hp. apply rbind_ok_inv in Hp as (part & _ & Hp). apply Ok_inj in Hp. subst post.
    apply rbind_ok_inv in H0 as (c & _ & H0). apply Ok_inj in H0. subst s'. split; [reflexivity|]. cbn [fst fork_num]. split; [lia|]. split; [intros X; lia|reflexivity].
  - unfold upgrade_to_bellatrix in H0. apply rbind_ok_inv in H0 as (e & _ & H0). apply Ok_inj in H0. subst. split; [reflexivity|]. cbn [fst fork_num]. split; [lia|]. split; [intros X; lia|reflexivity].
  - unfold upgrade_to_capella in H0. apply rbind_ok_inv in H0 as (e & _ & H0). cbv zeta in H0. apply Ok_inj in H0. subst. split; [reflexivity|]. cbn [fst fork_num]. split; [lia|]. split; [intros X; lia|reflexivity].
  - unfold upgrade_to_deneb in H0. apply rbind_ok_inv in H0 as (e & _ & H0). cbv zeta in H0. apply Ok_inj in H0. subst. split; [reflexivity|]. cbn [fst fork_num]. split; [lia|]. split; [intros X; lia|reflexivity].
  - unfold upgrade_to_electra in H0. apply rbind_ok_inv in H0 as (e & _ & H0). apply rbind_ok_inv in H0 as (ee & _ & H0). apply rbind_ok_inv in H0 as (ec & _ & H0).
    pose proof (idk_finish E (electra_base E e ee ec s)) as Hp. destruct (electra_finish E _) as [r post]. apply rbind_ok_inv in H0 as (u & _ & H0). apply Ok_inj in H0. subst s'.
    cbn [snd] in Hp. destruct Hp as [P1 P2]. unfold forkrel. cbn [fst snd fork_num]. rewrite P1, P2. split; [reflexivity|]. split; [lia|]. split; [intros X; lia|reflexivity].
Qed.
Lemma forkrel_trans a b c : forkrel a b -> forkrel b c -> forkrel a c.
Proof.
  intros (A1 & A2 & A3 & A4) (B1 & B2 & B3 & B4). split; [congruence|]. split; [lia|]. split.
  - intros H. rewrite B3 by (clear - A2 B2 H; lia). apply A3. clear - A2 B2 H; lia.
  - intros H. destruct (N.eq_dec (fork_num (fst b)) (fork_num (fst a))) as [Hb|Hb].
    + rewrite <- (A3 Hb). apply B4. clear - Hb H; lia.
    + rewrite B3 by (clear - A2 B2 H Hb; lia). apply A4. clear - A2 B2 H Hb; lia.
Qed.
Lemma forkrel_history (E : Env) p q : history E p q -> forkrel p q.
Proof.
  induction 1 as [a b H|a|a b c H1 IH1 H2 IH2]; [eapply forkrel_call; eauto| |eapply forkrel_trans; eauto].
  split; [reflexivity|]. split; [lia|]. split; [reflexivity|lia].
Qed.
Lemma keys_history (E : Env) p q : history E p q -> keys_within (snd p) (snd q).
Proof.
  intros H i v Hv. destruct (proj1 (history_across E p q H) i v Hv) as (w & W1 & W2 & _). exists w. split; [exact W1|apply W2].
Qed.

(** whatever happens on a chain, until the upgrade after the next a vote that verified keeps verifying: for the fork it was made in without condition, across
    one upgrade if its target lies before that upgrade (and not before the upgrade that preceded it) *)
Theorem C103_votes_stay_valid : forall (E : Env) (f g : Fork) (t s : BeaconState) (ia : IndexedAttestation),
  history E (f, t) (g, s) -> indexed_valid E t ia ->
  (g = f \/ (fork_num g = fork_num f + 1 /\ fk_epoch (fork t) <= cp_epoch (ad_target (ia_data ia)) /\ cp_epoch (ad_target (ia_data ia)) < fk_epoch (fork s))) ->
  indexed_valid E s ia.
Proof.
  intros E f g t s ia Hh Hv Hc. destruct (forkrel_history E _ _ Hh) as (G & _ & K1 & K2). cbn [fst snd] in *.
  apply (C103_evidence_travels E t s ia Hv); [intros i v _ Hi; exact (keys_history E _ _ Hh i v Hi)|exact G|].
  unfold version_at. destruct Hc as [->|(Hn & H1 & H2)]; [rewrite K1 by reflexivity; reflexivity|]. rewrite (K2 Hn).
  apply N.ltb_lt in H2. apply N.ltb_ge in H1. rewrite H1, H2. reflexivity.
Qed.

(** a pair of conflicting votes that both verify is an attester slashing: it is accepted as evidence and everyone who signed both, and can still be
    slashed, is in the list of validators that it slashes; once it has gone through they are slashed *)
Theorem C103_conflict_is_evidence : forall (E : Env) (f : Fork) (s : BeaconState) (va vb : IndexedAttestation) (i : N) (v : Validator),
  ctx_sane E -> indexed_valid E s va -> indexed_valid E s vb -> conflict (ia_data va) (ia_data vb) ->
  In i (ia_attesting_indices va) -> In i (ia_attesting_indices vb) -> nthN (validators s) i = Some v -> slashable_in E s v ->
  exists op, (op = mkASlash va vb \/ op = mkASlash vb va)
    /\ (exists l, In i l /\ (forall j, In j l <-> culpable E s op j) /\ process_attester_slashing E f op s = sfor l (fun j => slash_validator E f j None) s)
    /\ forall s', process_attester_slashing E f op s = (Ok tt, s') -> exists v', nthN (validators s') i = Some v' /\ v_slashed v' = true.
Proof.
  intros E f s va vb i v Hc Ha Hb Hk Ia Ib Hv Hs.
  assert (X : exists op, (op = mkASlash va vb \/ op = mkASlash vb va) /\ attester_slashing_proven E s op /\ culpable E s op i).
  { assert (Cu : forall x y, In i (ia_attesting_indices x) -> In i (ia_attesting_indices y) -> culpable E s (mkASlash x y) i).
    { intros x y Hx Hy. split; [exact Hx|]. split; [exact Hy|]. exists v. auto. }
    destruct Hk as [Hd|[Hd|Hd]].
    - exists (mkASlash va vb). split; [auto|]. split; [|apply Cu; assumption]. split; [left; exact Hd|]. split; assumption.
    - exists (mkASlash va vb). split; [auto|]. split; [|apply Cu; assumption]. split; [right; exact Hd|]. split; assumption.
    - exists (mkASlash vb va). split; [auto|]. split; [|apply Cu; assumption]. split; [right; exact Hd|]. split; assumption. }
  destruct X as (op & Ho & Hp & Hcu). exists op. split; [exact Ho|]. split.
  - destruct (proj2 (C13_attester_slashing E f s op Hc) Hp) as (l & L1 & L2 & L3 & L4). exists l. split; [apply L2; exact Hcu|]. split; [exact L2|]. apply L4. intros ->. apply L2 in Hcu. destruct Hcu.
  - intros s' H. destruct (C13_exactly_the_culpable E f s s' op Hc H) as (_ & Hl & Hall). destruct (nthN_lt (validators s') i) as [v' Hv'].
    { rewrite Hl. apply (nthN_some _ _ _ Hv). }
    exists v'. split; [exact Hv'|]. apply (proj1 (Hall i v v' Hv Hv')). exact Hcu.
Qed.

(** the validators that C100 finds guilty can be slashed on either chain: here on the first, as long as it knows the validators of the second by the same keys,
    no upgrade took place, and the guilty validator is still slashable *)
Theorem C103_guilty_can_be_slashed : forall (E : Env) (p0 : Fork * BeaconState) (f g : Fork) (s t : BeaconState) (la lb : list (Fork * BeaconState)) (i : N) (v : Validator),
  ctx_sane E -> walk E p0 ((f, s) :: la) -> walk E p0 ((g, t) :: lb) -> f = fst p0 -> g = fst p0 -> keys_within t s ->
  guilty E ((f, s) :: la) ((g, t) :: lb) i -> nthN (validators s) i = Some v -> slashable_in E s v ->
  exists op l, In i l /\ (forall j, In j l <-> culpable E s op j) /\ process_attester_slashing E f op s = sfor l (fun j => slash_validator E f j None) s
    /\ forall s', process_attester_slashing E f op s = (Ok tt, s') -> exists v', nthN (validators s') i = Some v' /\ v_slashed v' = true.
Proof.
  intros E p0 f g s t la lb i v Hc Wa Wb Hf Hg HK (va & vb & (Ia & ga & ta & Ta & Va) & (Ib & gb & tb & Tb & Vb) & Hk) Hv Hs.
  destruct (walk_chain E Hc p0 _ Wa _ Ta) as [A1 A2]. specialize (A2 _ _ eq_refl). destruct (walk_chain E Hc p0 _ Wb _ Tb) as [B1 B2]. specialize (B2 _ _ eq_refl).
  destruct (walk_chain E Hc p0 _ Wa (f, s) (or_introl eq_refl)) as [A0 _]. destruct (walk_chain E Hc p0 _ Wb (g, t) (or_introl eq_refl)) as [B0 _].
  apply chain_history in A0, A1, A2, B0, B1, B2.
  pose proof (forkrel_history E _ _ A0) as (RA1 & RA2 & RA3 & _). pose proof (forkrel_history E _ _ A1) as (_ & RA5 & _). pose proof (forkrel_history E _ _ A2) as (_ & RA6 & _).
  pose proof (forkrel_history E _ _ B0) as (RB1 & RB2 & RB3 & _). pose proof (forkrel_history E _ _ B1) as (_ & RB5 & _). pose proof (forkrel_history E _ _ B2) as (_ & RB6 & _).
  cbn [fst snd] in *. assert (Hga : ga = f) by (subst f; clear - RA5 RA6; destruct ga, (fst p0); cbn [fork_num] in *; first [reflexivity|lia]).
  assert (Hgb : gb = g) by (subst g; clear - RB5 RB6; destruct gb, (fst p0); cbn [fork_num] in *; first [reflexivity|lia]).
  assert (Va' : indexed_valid E s va) by (apply (C103_votes_stay_valid E ga f ta s va A2 Va); left; symmetry; exact Hga).
  assert (Vb1 : indexed_valid E t vb) by (apply (C103_votes_stay_valid E gb g tb t vb B2 Vb); left; symmetry; exact Hgb).
  assert (Vb' : indexed_valid E s vb).
  { apply (C103_evidence_travels E t s vb Vb1); [intros j w _ Hj; exact (HK j w Hj)|congruence|].
    unfold version_at. rewrite RA3, RB3 by congruence. reflexivity. }
  destruct (C103_conflict_is_evidence E f s va vb i v Hc Va' Vb' Hk Ia Ib Hv Hs) as (op & _ & (l & L1 & L2 & L3) & L4). exists op, l. auto.
Qed.

(** ** Examples *)
Definition keys_check (t s : BeaconState) : bool :=
  forallb (fun i => match nthN (validators t) i, nthN (validators s) i with Some v, Some w => bytes_eqb (v_public_key w) (v_public_key v) | _, _ => false end) (rangeN (lenN (validators t))).
Lemma keys_check_ok t s : keys_check t s = true -> keys_within t s.
Proof.
  intros H i v Hv. unfold keys_check in H. rewrite forallb_forall in H. specialize (H i ltac:(apply In_rangeN; apply (nthN_some _ _ _ Hv))). cbv beta in H. rewrite Hv in H.
  destruct (nthN (validators s) i) as [w|]; [|discriminate]. exists w. split; [reflexivity|]. apply bytes_eqb_true. exact H.
Qed.
Definition slashable_check (E : Env) (s : BeaconState) (i : N) : bool :=
  match nthN (validators s) i with Some v => negb (v_slashed v) && (v_activation_epoch v <=? epoch_of E s) && (epoch_of E s <? v_withdrawable_epoch v) | None => false end.
Lemma slashable_check_ok (E : Env) s i : slashable_check E s i = true -> exists v, nthN (validators s) i = Some v /\ slashable_in E s v.
Proof.
  unfold slashable_check. destruct (nthN (validators s) i) as [v|]; [|discriminate]. intros H. exists v. split; [reflexivity|].
  apply andb_prop in H as [H H3]. apply andb_prop in H as [H1 H2]. apply N.leb_le in H2. apply N.ltb_lt in H3. destruct (v_slashed v) eqn:Hs; [discriminate|]. unfold slashable_in. rewrite Hs. auto.
Qed.
(** the validator who voted on both sides of the fork of C100_example *)
Example C103_example : exists v, ctx_sane pair_env /\ walk pair_env (Phase0, pair_start) ((Phase0, pair_za) :: in_fork Phase0 (tl pair_a))
  /\ walk pair_env (Phase0, pair_start) ((Phase0, pair_zb) :: in_fork Phase0 (tl pair_b)) /\ keys_within pair_zb pair_za
  /\ guilty pair_env ((Phase0, pair_za) :: in_fork Phase0 (tl pair_a)) ((Phase0, pair_zb) :: in_fork Phase0 (tl pair_b)) 0
  /\ nthN (validators pair_za) 0 = Some v /\ slashable_in pair_env pair_za v.
Proof.
  destruct C100_example as (_ & (_ & Wa & _) & (_ & Wb & _) & _ & _ & _ & _ & _ & _ & G).
  destruct (slashable_check_ok pair_env pair_za 0 ltac:(vm_compute; reflexivity)) as (v & V1 & V2). exists v.
  split; [exact pair_sane|]. split; [exact Wa|]. split; [exact Wb|]. split; [apply keys_check_ok; vm_compute; reflexivity|]. split; [|split; [exact V1|exact V2]].
  assert (La : in_fork Phase0 pair_a = (Phase0, pair_za) :: in_fork Phase0 (tl pair_a)).
  { assert (X : match pair_a with [] => false | _ => true end = true) by (vm_compute; reflexivity). unfold pair_za. destruct pair_a; [discriminate|reflexivity]. }
  assert (Lb : in_fork Phase0 pair_b = (Phase0, pair_zb) :: in_fork Phase0 (tl pair_b)).
  { assert (X : match pair_b with [] => false | _ => true end = true) by (vm_compute; reflexivity). unfold pair_zb. destruct pair_b; [discriminate|reflexivity]. }
  rewrite <- La, <- Lb. exact G.
Qed.

Print Assumptions C103_evidence_travels.
Print Assumptions C103_votes_stay_valid.
Print Assumptions C103_conflict_is_evidence.
Print Assumptions C103_guilty_can_be_slashed.
