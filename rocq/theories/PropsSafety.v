(** * C100, C101: finality cannot be contradicted without slashable votes, and recorded votes are signed *)
From Verif Require Import Base BaseLemmas Types Ctx Env Presets Helpers HelpersAltair HelpersElectra Block Epoch Transition Upgrade Genesis StLemmas
  SpecCommon SpecShuffle SpecHelpers SpecElectra SpecOps SpecAtt SpecFinality SpecEpoch SpecDuties SpecReach SpecSafety
  HelperProofs HelperProofs2 HistoryProofs FinalityProofs VoteProofs PropsVotes SafetyProofs SafetyChain Toy Toy2 ToyPairCtx ToyPair.

(** what a configuration must satisfy; the shipped networks do *)
Record safety_config (E : Env) : Prop := mkSafetyConfig {
  sf_checks : chk E = true;
  sf_sane : ctx_sane E;
  sf_att : ctx_sane_att E;
  sf_epoch : ctx_sane_epoch E;
  sf_hash : hash_wf (hash E);
  sf_mixes : mixes_last E;
  sf_slots : 2 <= SLOTS_PER_EPOCH E }.
(** a walk of realistic size that starts at a genesis state *)
Definition from_genesis (E : Env) (p0 z : Fork * BeaconState) (l : list (Fork * BeaconState)) : Prop :=
  (exists bh ts ds h, initialize_beacon_state_from_eth1 E (fst p0) bh ts ds h = Ok (snd p0))
  /\ walk E p0 (z :: l) /\ lenN (validators (snd z)) <= 2 ^ 40 /\ slot (snd z) < 2 ^ 56.

(** the walks of a node are exactly its chains, looked at one slot and one block at a time *)
Theorem C100_chains_are_walks : forall (E : Env) (p0 z : Fork * BeaconState), ctx_sane E ->
  (SpecFinality.chain E p0 z <-> exists l, walk E p0 (z :: l)).
Proof.
  intros E p0 z Hc. split; [apply walk_of; exact Hc|]. intros [l H]. apply (walk_chain E Hc p0 _ H z). left. reflexivity.
Qed.

(** ** C101 *)
(** altair on: nobody is credited for a vote they did not sign.  A participation flag of a state is there because its validator signed an attestation
    for that epoch, with the justified checkpoint as source; flags 1 and 2 (target, head) only if the target is the block the state records *)
Theorem C101_credit_is_signed : forall (E : Env) (p0 : Fork * BeaconState) (g : Fork) (s : BeaconState) (l : list (Fork * BeaconState)) (i p k : N),
  safety_config E -> from_genesis E p0 (g, s) l -> g <> Phase0 ->
  (nthN (current_epoch_participation s) i = Some p -> N.testbit p k = true ->
   exists ia, signed_on E ((g, s) :: l) i ia /\ ad_source (ia_data ia) = current_justified_checkpoint s
     /\ cp_epoch (ad_target (ia_data ia)) = epoch_of E s
     /\ (k <> 0 -> recorded_root E s (epoch_of E s * SLOTS_PER_EPOCH E) = Some (cp_root (ad_target (ia_data ia)))))
  /\ (nthN (previous_epoch_participation s) i = Some p -> N.testbit p k = true ->
   exists ia, signed_on E ((g, s) :: l) i ia /\ ad_source (ia_data ia) = previous_justified_checkpoint s
     /\ cp_epoch (ad_target (ia_data ia)) = prev_epoch_of E s
     /\ (k <> 0 -> recorded_root E s (prev_epoch_of E s * SLOTS_PER_EPOCH E) = Some (cp_root (ad_target (ia_data ia))))).
Proof.
  intros E p0 g s l i p k [C1 C2 C3 C4 C5 C6 C7] ((bh & ts & ds & h & Hg) & Hw & Hn & Hs) Hne. cbn [snd] in Hn, Hs.
  pose proof (vinv_path E C1 C2 C3 C4 C5 C6 C7 bh ts ds h p0 (g, s) l Hw Hg Hn Hs [] 0 (g, s) (or_introl eq_refl)) as [I _]. cbn [fst snd] in I.
  assert (Hr : forall b, exists r, recorded_root E s (eb E b s * SLOTS_PER_EPOCH E) = Some r).
  { intros b. apply nthN_lt. assert (Ho : on_chain E g s).
    { destruct (walk_chain E C2 p0 _ Hw (g, s) (or_introl eq_refl)) as [Hc _]. destruct p0 as [f0 s0]. exists f0, bh, ts, ds, h, s0. split; assumption. }
    destruct (on_chain_shape E g s Ho Hn) as (-> & _). apply N.mod_lt. ctxs C2. lia. }
  assert (Hmain : forall b, nthN (participation b s) i = Some p -> N.testbit p k = true -> exists ia, signed_on E ((g, s) :: l) i ia /\ ad_source (ia_data ia) = jb b s
     /\ cp_epoch (ad_target (ia_data ia)) = eb E b s /\ (k <> 0 -> recorded_root E s (eb E b s * SLOTS_PER_EPOCH E) = Some (cp_root (ad_target (ia_data ia))))).
  { intros b Hp Hk. destruct (Hr b) as [r Hrr]. destruct (I b i k r) as [_ (ia & I1 & I2 & I3 & I4)].
    - destruct g; [contradiction|..]; exists p; auto.
    - exists ia. split; [exact I1|]. split; [exact I2|]. split; [exact I3|]. intros Hk0. destruct I4 as [I4|I4]; [contradiction|congruence]. }
  split; [apply (Hmain true)|apply (Hmain false)].
Qed.
(** phase0: the same for the members that a recorded aggregate names *)
Theorem C101_phase0_votes_are_signed : forall (E : Env) (p0 : Fork * BeaconState) (s : BeaconState) (l : list (Fork * BeaconState)) (a : PendingAttestation) (com : list N) (i j : N),
  safety_config E -> from_genesis E p0 (Phase0, s) l ->
  is_committee E s (ad_slot (pa_data a)) (ad_index (pa_data a)) com -> nthN (pa_aggregation_bits a) j = Some true -> nthN com j = Some i ->
  (In a (current_epoch_attestations s) ->
   exists ia, signed_on E ((Phase0, s) :: l) i ia /\ ad_source (ia_data ia) = current_justified_checkpoint s /\ ad_target (ia_data ia) = ad_target (pa_data a)
     /\ cp_epoch (ad_target (ia_data ia)) = epoch_of E s)
  /\ (In a (previous_epoch_attestations s) ->
   exists ia, signed_on E ((Phase0, s) :: l) i ia /\ ad_source (ia_data ia) = previous_justified_checkpoint s /\ ad_target (ia_data ia) = ad_target (pa_data a)
     /\ cp_epoch (ad_target (ia_data ia)) = prev_epoch_of E s).
Proof.
  intros E p0 s l a com i j [C1 C2 C3 C4 C5 C6 C7] ((bh & ts & ds & h & Hg) & Hw & Hn & Hs) Hcom Hbit Hi. cbn [snd] in Hn, Hs.
  pose proof (vinv_path E C1 C2 C3 C4 C5 C6 C7 bh ts ds h p0 (Phase0, s) l Hw Hg Hn Hs [] 0 (Phase0, s) (or_introl eq_refl)) as [I _]. cbn [fst snd] in I.
  assert (Ho : on_chain E Phase0 s).
  { destruct (walk_chain E C2 p0 _ Hw (Phase0, s) (or_introl eq_refl)) as [Hc _]. destruct p0 as [f0 s0]. exists f0, bh, ts, ds, h, s0. split; assumption. }
  destruct (C97_votes_stay_valid E s C1 C2 C3 C5 C6 Ho Hn Hs) as [V1 V2].
  assert (Hmain : forall b, In a (atts b s) -> exists ia, signed_on E ((Phase0, s) :: l) i ia /\ ad_source (ia_data ia) = jb b s /\ ad_target (ia_data ia) = ad_target (pa_data a)
     /\ cp_epoch (ad_target (ia_data ia)) = eb E b s).
  { intros b Ha. assert (Hv : ad_slot (pa_data a) / SLOTS_PER_EPOCH E = eb E b s /\ cp_epoch (ad_target (pa_data a)) = eb E b s).
    { destruct b; [destruct (V1 a Ha) as (_ & X & _ & _ & Y)|destruct (V2 a Ha) as (_ & X & _ & _ & Y)]; split; assumption. }
    destruct Hv as [Hv1 Hv2]. destruct (I b i 1 (cp_root (ad_target (pa_data a)))) as [_ (ia & I1 & I2 & I3 & I4)]; [exists a, com, j; auto 8|].
    exists ia. split; [exact I1|]. split; [exact I2|]. split; [|exact I3]. destruct I4 as [I4|I4]; [discriminate|].
    destruct (ad_target (ia_data ia)) as [e1 r1]. destruct (ad_target (pa_data a)) as [e2 r2]. cbn [cp_epoch cp_root] in *. congruence. }
  split; [apply (Hmain true)|apply (Hmain false)].
Qed.
(** a justified checkpoint of a state (genesis apart) is a block the walk records, and validators with two thirds of the stake signed votes for it *)
Theorem C101_justified_is_signed : forall (E : Env) (p0 : Fork * BeaconState) (g : Fork) (s : BeaconState) (l : list (Fork * BeaconState)) (w : list N) (drift : N),
  safety_config E -> from_genesis E p0 (g, s) l ->
  steady_stake E w drift ((g, s) :: l) -> 3 * EFFECTIVE_BALANCE_INCREMENT E + 2 * drift < 2 * sumN w ->
  forall c, c = current_justified_checkpoint s \/ c = finalized_checkpoint s -> 1 <= cp_epoch c ->
  starts_epoch E ((g, s) :: l) (cp_epoch c) (cp_root c)
  /\ exists voters, NoDup voters /\ 2 * sumN w <= 3 * sumN (map (listed w) voters) + 5 * drift
     /\ forall i, In i voters -> exists ia, signed_on E ((g, s) :: l) i ia /\ ad_target (ia_data ia) = c.
Proof.
  intros E p0 g s l w drift [C1 C2 C3 C4 C5 C6 C7] ((bh & ts & ds & h & Hg) & Hw & Hn & Hs) Hst Hbig c Hc He. cbn [snd] in Hn, Hs.
  pose proof (inv_path E C1 C2 C3 C4 C5 C6 C7 bh ts ds h p0 (g, s) l Hw Hg Hn Hs w drift Hst Hbig (g, s) (or_introl eq_refl)) as I.
  assert (Hj : just E (g, s) l w drift c).
  { destruct Hc as [->| ->]; [destruct (i_cur _ _ _ _ _ _ I) as [H0|H0]|destruct (i_fin _ _ _ _ _ _ I) as [H0|[H0 _]]]; cbn [snd] in H0; try exact H0; lia. }
  destruct Hj as [src c _ (L1 & voters & L2 & L3 & L4)]. split; [exact L1|]. exists voters. split; [exact L2|]. split; [exact L3|].
  intros i Hi. destruct (L4 i Hi) as (ia & I1 & _ & I3). eauto.
Qed.

(** ** C100 *)
Lemma guilty_sym (E : Env) a b i : guilty E a b i -> guilty E b a i.
Proof.
  intros (va & vb & A & B & H). exists vb, va. split; [exact B|]. split; [exact A|]. unfold double_vote in *.
  destruct H as [[H1 H2]|[H|H]]; [left; split; [congruence|symmetry; exact H2]|auto|auto].
Qed.
Lemma NoDup_join (a b : list N) : NoDup a -> NoDup b -> (forall x, In x a -> In x b -> False) -> NoDup (a ++ b).
Proof.
  induction a as [|x a IH]; intros Ha Hb Hd; [exact Hb|]. inversion Ha; subst. cbn [app]. constructor.
  - intros Hin. apply in_app_or in Hin as [Hin|Hin]; [contradiction|]. exact (Hd x (or_introl eq_refl) Hin).
  - apply IH; [assumption|exact Hb|]. intros y Hy. apply Hd. right. exact Hy.
Qed.
(** two sets of two thirds have a third in common *)
Lemma two_thirds w drift la lb : NoDup la -> NoDup lb -> 2 * sumN w <= 3 * sumN (map (listed w) la) + 5 * drift -> 2 * sumN w <= 3 * sumN (map (listed w) lb) + 5 * drift ->
  exists l, NoDup l /\ sumN w <= 3 * sumN (map (listed w) l) + 10 * drift /\ forall i, In i l -> In i la /\ In i lb.
Proof.
  intros Na Nb Ha Hb. set (p := fun i => memN i lb). exists (filter p la). split; [apply NoDup_filter; exact Na|]. split.
  - assert (Hsplit : sumN (map (listed w) la) = sumN (map (listed w) (filter p la)) + sumN (map (listed w) (filter (fun i => negb (p i)) la))).
    { clear. induction la as [|x la IH]; [reflexivity|]. cbn [filter map]. destruct (p x); cbn [negb map]; rewrite !sumN_cons, IH; lia. }
    assert (Hu : sumN (map (listed w) (filter (fun i => negb (p i)) la ++ lb)) <= sumN w).
    { apply listed_le. apply NoDup_join; [apply NoDup_filter; exact Na|exact Nb|]. intros x Hx Hy. apply filter_In in Hx as [_ Hx]. apply memN_true in Hy. unfold p in Hx. rewrite Hy in Hx. discriminate. }
    rewrite map_app, sumN_app in Hu. lia.
  - intros i Hi. apply filter_In in Hi as [H1 H2]. split; [exact H1|apply memN_true; exact H2].
Qed.
(** below every justified checkpoint of epoch [k] or later there is a link that jumps over the boundary before [k] *)
Fixpoint just_descend (E : Env) z l w drift k c (Hk : 1 <= k) (H : just E z l w drift c) {struct H} : k <= cp_epoch c ->
  exists src tgt, link E z l w drift src tgt /\ cp_epoch src < k /\ k <= cp_epoch tgt.
Proof.
  intros Hc. destruct H as [src c Hsrc Hl]. destruct (N.lt_ge_cases (cp_epoch src) k) as [Hlt|Hge]; [exists src, c; auto|].
  destruct Hsrc as [H0|Hj]; [exfalso; clear - Hk H0 Hge; lia|]. exact (just_descend E z l w drift k src Hk Hj Hge).
Qed.
(** one link on each walk: everyone behind both is guilty *)
Lemma links_clash (E : Env) za la zb lb w drift s1 t1 s2 t2 :
  link E za la w drift s1 t1 -> link E zb lb w drift s2 t2 ->
  (cp_epoch t1 = cp_epoch t2 /\ cp_root t1 <> cp_root t2) \/ (cp_epoch s2 < cp_epoch s1 /\ cp_epoch t1 < cp_epoch t2) ->
  exists culprits, NoDup culprits /\ sumN w <= 3 * sumN (map (listed w) culprits) + 10 * drift /\ forall i, In i culprits -> guilty E (za :: la) (zb :: lb) i.
Proof.
  intros (_ & va & Na & Wa & Va) (_ & vb & Nb & Wb & Vb) Hc. destruct (two_thirds w drift va vb Na Nb Wa Wb) as (c & C1 & C2 & C3).
  exists c. split; [exact C1|]. split; [exact C2|]. intros i Hi. destruct (C3 i Hi) as [Hia Hib].
  destruct (Va i Hia) as (ia & A1 & A2 & A3). destruct (Vb i Hib) as (ib & B1 & B2 & B3). exists ia, ib. split; [exact A1|]. split; [exact B1|].
  unfold double_vote, surrounds. rewrite A2, A3, B2, B3. destruct Hc as [[H1 H2]|H]; [left; split; [intros X; apply H2; rewrite <- A3, <- B3, X; reflexivity|exact H1]|right; right; exact H].
Qed.

(** if one walk finalizes epoch [k] and the other, which has no checkpoint in common with it from there on, justifies epoch [k] or a later one, then
    validators with a third of the stake signed slashable pairs of votes *)
Theorem C100_accountable_safety : forall (E : Env) (p0 za zb : Fork * BeaconState) (la lb : list (Fork * BeaconState)) (w : list N) (drift : N),
  safety_config E -> from_genesis E p0 za la -> from_genesis E p0 zb lb ->
  steady_stake E w drift (za :: la) -> steady_stake E w drift (zb :: lb) -> 3 * EFFECTIVE_BALANCE_INCREMENT E + 2 * drift < 2 * sumN w ->
  let k := cp_epoch (finalized_checkpoint (snd za)) in
  1 <= k -> k <= cp_epoch (current_justified_checkpoint (snd zb)) -> forked_at E k (za :: la) (zb :: lb) ->
  exists culprits, NoDup culprits /\ sumN w <= 3 * sumN (map (listed w) culprits) + 10 * drift
    /\ forall i, In i culprits -> guilty E (za :: la) (zb :: lb) i.
Proof.
  intros E p0 za zb la lb w drift [C1 C2 C3 C4 C5 C6 C7] ((bh & ts & ds & h & Hg) & Hwa & Hna & Hsa) ((bh' & ts' & ds' & h' & Hg') & Hwb & Hnb & Hsb) Sa Sb Hbig k Hk Hkb Hfork.
  pose proof (inv_path E C1 C2 C3 C4 C5 C6 C7 bh ts ds h p0 za la Hwa Hg Hna Hsa w drift Sa Hbig za (or_introl eq_refl)) as IA.
  pose proof (inv_path E C1 C2 C3 C4 C5 C6 C7 bh' ts' ds' h' p0 zb lb Hwb Hg' Hnb Hsb w drift Sb Hbig zb (or_introl eq_refl)) as IB.
  destruct (i_fin _ _ _ _ _ _ IA) as [F0|[Fj Fl]]; [exfalso; clear - Hk F0; subst k; lia|].
  destruct (i_cur _ _ _ _ _ _ IB) as [J0|Jb]; [exfalso; clear - Hk J0 Hkb; lia|].
  destruct (just_descend E zb lb w drift k _ Hk Jb Hkb) as (src & tgt & Hl & H1 & H2). clear IA IB Jb.
  assert (Hd : forall s1 t1, link E za la w drift s1 t1 -> cp_epoch t1 = cp_epoch tgt -> cp_epoch t1 <= k + 2 ->
    exists culprits, NoDup culprits /\ sumN w <= 3 * sumN (map (listed w) culprits) + 10 * drift /\ forall i, In i culprits -> guilty E (za :: la) (zb :: lb) i).
  { intros s1 t1 L1 He Hle. apply (links_clash E za la zb lb w drift s1 t1 src tgt L1 Hl). left. split; [exact He|]. intros Hr.
    destruct L1 as [X1 _]. pose proof Hl as [X2 _]. apply (Hfork (cp_epoch tgt) (cp_root tgt)); [exact H2|rewrite <- He; exact Hle|rewrite <- He, <- Hr; exact X1|exact X2]. }
  assert (Hs : forall t1, link E za la w drift (finalized_checkpoint (snd za)) t1 -> cp_epoch t1 < cp_epoch tgt ->
    exists culprits, NoDup culprits /\ sumN w <= 3 * sumN (map (listed w) culprits) + 10 * drift /\ forall i, In i culprits -> guilty E (za :: la) (zb :: lb) i).
  { intros t1 L1 Hlt. apply (links_clash E za la zb lb w drift _ t1 src tgt L1 Hl). right. split; [exact H1|exact Hlt]. }
  destruct (N.eq_dec (cp_epoch tgt) k) as [E0|E0].
  { destruct Fj as [s1 c1 _ L1]. apply (Hd s1 _ L1); [symmetry; exact E0|fold k; clear; lia]. }
  destruct Fl as [[r L1]|[[r L2] [r1 J1]]]; [fold k in L1|fold k in L2, J1].
  - destruct (N.eq_dec (cp_epoch tgt) (k + 1)) as [E1|E1]; [apply (Hd _ _ L1); cbn [cp_epoch]; [symmetry; exact E1|clear; lia]|].
    apply (Hs _ L1). cbn [cp_epoch]. clear - E0 E1 H2. lia.
  - destruct (N.eq_dec (cp_epoch tgt) (k + 1)) as [E1|E1].
    { inversion J1 as [s1 c1 _ L1 Heq]. apply (Hd s1 _ L1); cbn [cp_epoch]; [symmetry; exact E1|clear; lia]. }
    destruct (N.eq_dec (cp_epoch tgt) (k + 2)) as [E2|E2]; [apply (Hd _ _ L2); cbn [cp_epoch]; [symmetry; exact E2|clear; lia]|].
    apply (Hs _ L2). cbn [cp_epoch]. clear - E0 E1 E2 H2. lia.
Qed.
(** in particular: two walks cannot finalize blocks of different branches unless validators with a third of the stake signed slashable pairs of votes *)
Theorem C100_conflicting_finality : forall (E : Env) (p0 za zb : Fork * BeaconState) (la lb : list (Fork * BeaconState)) (w : list N) (drift : N),
  safety_config E -> from_genesis E p0 za la -> from_genesis E p0 zb lb ->
  steady_stake E w drift (za :: la) -> steady_stake E w drift (zb :: lb) -> 3 * EFFECTIVE_BALANCE_INCREMENT E + 2 * drift < 2 * sumN w ->
  let ka := cp_epoch (finalized_checkpoint (snd za)) in let kb := cp_epoch (finalized_checkpoint (snd zb)) in
  1 <= ka -> 1 <= kb -> forked_at E (N.min ka kb) (za :: la) (zb :: lb) ->
  exists culprits, NoDup culprits /\ sumN w <= 3 * sumN (map (listed w) culprits) + 10 * drift
    /\ forall i, In i culprits -> guilty E (za :: la) (zb :: lb) i.
Proof.
  intros E p0 za zb la lb w drift Hcfg Ga Gb Sa Sb Hbig ka kb Hka Hkb Hf.
  assert (Hord : forall z l, from_genesis E p0 z l -> cp_epoch (finalized_checkpoint (snd z)) <= cp_epoch (current_justified_checkpoint (snd z))).
  { intros z l ((bh & ts & ds & h & Hg) & Hw & _). destruct Hcfg as [C1 C2 C3 C4 C5 C6 C7]. destruct (walk_chain E C2 p0 _ Hw z (or_introl eq_refl)) as [Hc _].
    destruct p0 as [f0 s0]. destruct z as [g s]. destruct (C97_finality_ordered E g s C2 C3) as (X & Y & _); [exists f0, bh, ts, ds, h, s0; split; assumption|]. cbn [snd]. clear - X Y. lia. }
  pose proof (Hord _ _ Ga) as Oa. pose proof (Hord _ _ Gb) as Ob. fold ka in Oa. fold kb in Ob.
  destruct (N.le_ge_cases ka kb) as [Hle|Hle].
  - rewrite N.min_l in Hf by exact Hle. apply (C100_accountable_safety E p0 za zb la lb w drift Hcfg Ga Gb Sa Sb Hbig Hka); [fold ka; clear - Hle Ob; lia|exact Hf].
  - rewrite N.min_r in Hf by exact Hle. destruct (C100_accountable_safety E p0 zb za lb la w drift Hcfg Gb Ga Sb Sa Hbig Hkb) as (c & X1 & X2 & X3);
      [fold kb; clear - Hle Oa; lia|intros e r H1 H2 H3 H4; exact (Hf e r H1 H2 H4 H3)|].
    exists c. split; [exact X1|]. split; [exact X2|]. intros i Hi. apply guilty_sym. exact (X3 i Hi).
Qed.

(** every shipped network qualifies *)
Theorem C100_networks : forall c, In c [ctx_mainnet; ctx_minimal; ctx_goerli; ctx_sepolia; ctx_holesky; ctx_hoodi] ->
  forall o features n, hash_wf (hash o) -> safety_config (mkEnv c o true features n).
Proof.
  intros c Hin o features n Hh. pose proof (C97_networks c Hin) as Hm.
  repeat (destruct Hin as [<-|Hin]; [constructor; [reflexivity|check_sane|vm_compute; repeat split; congruence|vm_compute; repeat split; congruence|exact Hh|exact Hm|vm_compute; congruence]|]). destruct Hin.
Qed.

(** ** Example: one validator votes on two branches, and both finalize epoch 1 *)
Definition in_fork (f : Fork) (l : list BeaconState) : list (Fork * BeaconState) := map (fun s => (f, s)) l.
Lemma pair_walk (E : Env) n f p0 es : forall ok l, walk E p0 (in_fork f l) -> fst (pair_run E n f ok l es) = true ->
  walk E p0 (in_fork f (snd (pair_run E n f ok l es))).
Proof.
  assert (Hok : forall es l, fst (pair_run E n f false l es) = false).
  { clear. intros es. induction es as [|e es IH]; intros l; [reflexivity|]. destruct l as [|s l]; [reflexivity|]. cbn [pair_run]. destruct (pair_next E n f e s). apply IH. }
  induction es as [|e es IH]; intros ok l Hw Hr; [exact Hw|]. destruct l as [|s l]; [exact Hw|]. cbn [pair_run] in Hr |- *.
  destruct (pair_next E n f e s) as [b t] eqn:Hn. destruct b; [|rewrite andb_false_r, Hok in Hr; discriminate]. apply IH; [|exact Hr].
  cbn [in_fork map] in *. apply walk_step; [exact Hw|]. unfold pair_next in Hn. destruct e as [|votes].
  - destruct (process_slots E f (slot s + 1) s) as [r t'] eqn:Hp. destruct r as [[]| | |]; injection Hn as Hlt <-; try discriminate.
    apply step_slot; [apply N.ltb_lt; exact Hlt|exact Hp].
  - destruct (process_block E f (pair_block E n votes s) s) as [r t'] eqn:Hp. injection Hn as _ <-. exact (step_block E f _ s r t' Hp).
Qed.
Definition pair_steady (s : BeaconState) : bool :=
  match validators s with [v] => (v_effective_balance v =? 32000000000) && (v_activation_epoch v =? 0) && (v_exit_epoch v =? FAR_FUTURE_EPOCH) | _ => false end && (slot s <? 100).
Lemma pair_steady_ok l : forallb pair_steady l = true -> steady_stake pair_env [32000000000] 0 (in_fork Phase0 l).
Proof.
  intros H g t Hin _. apply in_map_iff in Hin as (x & Hx & Hin). injection Hx as <- <-. rewrite forallb_forall in H. specialize (H x Hin).
  unfold pair_steady in H. apply andb_prop in H as [H Hs]. apply N.ltb_lt in Hs. destruct (validators x) as [|v [|v' vs]] eqn:Hv; try discriminate.
  apply andb_prop in H as [H H3]. apply andb_prop in H as [H1 H2]. apply N.eqb_eq in H1, H2, H3.
  split; [unfold stake_fits; rewrite Hv; cbn [map]; rewrite sumN_cons, H1; reflexivity|].
  intros e X He _. assert (Hle : e < 100).
  { assert (epoch_of pair_env x <= slot x) by (unfold epoch_of; apply N.div_le_upper_bound; [discriminate|change (SLOTS_PER_EPOCH pair_env) with 2; clear; lia]).
    destruct He as [->| ->]; unfold prev_epoch_of; clear - H Hs; lia. }
  assert (Heq : forall i, stake_at x e i = listed [32000000000] i).
  { intros i. unfold stake_at, listed. rewrite Hv. destruct (N.eq_dec i 0) as [->|Hi].
    - cbn. unfold active_at. change (0 =? 0) with true. cbv iota. rewrite H1, H2, H3. assert (Hz : (0 <=? e) = true) by (apply N.leb_le; apply N.le_0_l). rewrite Hz. replace (e <? FAR_FUTURE_EPOCH) with true; [reflexivity|].
      symmetry. apply N.ltb_lt. apply (N.lt_trans _ 100); [exact Hle|reflexivity].
    - assert (forall A (y : A), nthN [y] i = None) as Hnone by (intros A y; apply nthN_none; change (lenN [y]) with 1; clear - Hi; lia). rewrite !Hnone. reflexivity. }
  rewrite (map_ext _ _ Heq). split; rewrite N.add_0_r; apply N.le_refl.
Qed.
Definition pair_apart (a b : BeaconState) : bool :=
  forallb (fun e => match recorded_root pair_env a (e * 2), recorded_root pair_env b (e * 2) with
    | Some x, Some y => (slot a <=? e * 2) || (slot b <=? e * 2) || negb (bytes_eqb x y) | _, _ => true end) [1; 2; 3].
Lemma pair_apart_ok la lb : forallb (fun a => forallb (pair_apart a) lb) la = true -> forked_at pair_env 1 (in_fork Phase0 la) (in_fork Phase0 lb).
Proof.
  intros H e r H1 H2 (g & a & Ia & A1 & _ & A2) (g' & b & Ib & B1 & _ & B2). apply in_map_iff in Ia as (x & Hx & Ia). injection Hx as _ ->. apply in_map_iff in Ib as (y & Hy & Ib). injection Hy as _ ->.
  rewrite forallb_forall in H. specialize (H a Ia). cbv beta in H. rewrite forallb_forall in H. specialize (H b Ib). unfold pair_apart in H. rewrite forallb_forall in H.
  change (SLOTS_PER_EPOCH pair_env) with 2 in *.
  assert (He : In e [1; 2; 3]) by (cbn; clear - H1 H2; lia). specialize (H e He). cbv beta in H. rewrite A2, B2 in H.
  apply N.leb_gt in A1, B1. rewrite A1, B1 in H. cbn [orb] in H. apply negb_true_iff in H. assert (X : bytes_eqb r r = true) by (apply bytes_eqb_true; reflexivity). congruence.
Qed.
Definition pair_za : BeaconState := hd pair_start pair_a.
Definition pair_zb : BeaconState := hd pair_start pair_b.
Lemma pair_config : safety_config pair_env.
Proof.
  constructor; [reflexivity|exact pair_sane|exact pair_sane_att|vm_compute; repeat split; congruence|exact pair_hash_wf|split; vm_compute; congruence|discriminate].
Qed.
Lemma pair_initial f : f = Phase0 \/ f = Altair -> initialize_beacon_state_from_eth1 pair_env f zero32 5 (pair_deposits 1) None = Ok (pair_genesis pair_env 1 f).
Proof.
  intros Hf. unfold pair_genesis. assert (H : match initialize_beacon_state_from_eth1 pair_env f zero32 5 (pair_deposits 1) None with Ok _ => true | _ => false end = true)
    by (destruct Hf as [->| ->]; vm_compute; reflexivity).
  destruct (initialize_beacon_state_from_eth1 pair_env f zero32 5 (pair_deposits 1) None); [reflexivity|discriminate..].
Qed.
Lemma pair_from f es l : f = Phase0 \/ f = Altair -> pair_run pair_env 1 f true [pair_genesis pair_env 1 f] es = (true, l) ->
  forall z tl, l = z :: tl -> lenN (validators z) <= 2 ^ 40 -> slot z < 2 ^ 56 -> from_genesis pair_env (f, pair_genesis pair_env 1 f) (f, z) (in_fork f tl).
Proof.
  intros Hf Hr z tl -> Hn Hs. split; [exists zero32, 5, (pair_deposits 1), None; exact (pair_initial f Hf)|]. split; [|split; [exact Hn|exact Hs]].
  change ((f, z) :: in_fork f tl) with (in_fork f (z :: tl)). replace (z :: tl) with (snd (pair_run pair_env 1 f true [pair_genesis pair_env 1 f] es)) by (rewrite Hr; reflexivity).
  apply pair_walk; [apply walk_start|rewrite Hr; reflexivity].
Qed.
Example C100_example : safety_config pair_env
  /\ from_genesis pair_env (Phase0, pair_start) (Phase0, pair_za) (in_fork Phase0 (tl pair_a))
  /\ from_genesis pair_env (Phase0, pair_start) (Phase0, pair_zb) (in_fork Phase0 (tl pair_b))
  /\ steady_stake pair_env [32000000000] 0 (in_fork Phase0 pair_a) /\ steady_stake pair_env [32000000000] 0 (in_fork Phase0 pair_b)
  /\ 3 * EFFECTIVE_BALANCE_INCREMENT pair_env + 2 * 0 < 2 * sumN [32000000000]
  /\ cp_epoch (finalized_checkpoint pair_za) = 1 /\ cp_epoch (finalized_checkpoint pair_zb) = 1
  /\ forked_at pair_env 1 (in_fork Phase0 pair_a) (in_fork Phase0 pair_b)
  /\ guilty pair_env (in_fork Phase0 pair_a) (in_fork Phase0 pair_b) 0.
Proof.
  assert (Ha : fst (pair_run pair_env 1 Phase0 true [pair_start] (Slot :: Blk [] :: pair_tail)) = true) by (vm_compute; reflexivity).
  assert (Hb : fst (pair_run pair_env 1 Phase0 true [pair_start] (Slot :: pair_tail)) = true) by (vm_compute; reflexivity).
  assert (Ga : from_genesis pair_env (Phase0, pair_start) (Phase0, pair_za) (in_fork Phase0 (tl pair_a))).
  { apply (pair_from Phase0 (Slot :: Blk [] :: pair_tail) pair_a); [left; reflexivity|rewrite <- Ha; apply surjective_pairing| | |].
    - assert (X : match pair_a with [] => false | _ => true end = true) by (vm_compute; reflexivity). unfold pair_za. destruct pair_a; [discriminate|reflexivity].
    - vm_compute. discriminate.
    - vm_compute. reflexivity. }
  assert (Gb : from_genesis pair_env (Phase0, pair_start) (Phase0, pair_zb) (in_fork Phase0 (tl pair_b))).
  { apply (pair_from Phase0 (Slot :: pair_tail) pair_b); [left; reflexivity|rewrite <- Hb; apply surjective_pairing| | |].
    - assert (X : match pair_b with [] => false | _ => true end = true) by (vm_compute; reflexivity). unfold pair_zb. destruct pair_b; [discriminate|reflexivity].
    - vm_compute. discriminate.
    - vm_compute. reflexivity. }
  assert (Sa : steady_stake pair_env [32000000000] 0 (in_fork Phase0 pair_a)) by (apply pair_steady_ok; vm_compute; reflexivity).
  assert (Sb : steady_stake pair_env [32000000000] 0 (in_fork Phase0 pair_b)) by (apply pair_steady_ok; vm_compute; reflexivity).
  assert (Hbig : 3 * EFFECTIVE_BALANCE_INCREMENT pair_env + 2 * 0 < 2 * sumN [32000000000]) by (vm_compute; reflexivity).
  assert (Fa : cp_epoch (finalized_checkpoint pair_za) = 1) by (vm_compute; reflexivity).
  assert (Fb : cp_epoch (finalized_checkpoint pair_zb) = 1) by (vm_compute; reflexivity).
  assert (Hf : forked_at pair_env 1 (in_fork Phase0 pair_a) (in_fork Phase0 pair_b)) by (apply pair_apart_ok; vm_compute; reflexivity).
  repeat (split; [first [exact pair_config|assumption]|]).
  assert (La : in_fork Phase0 pair_a = (Phase0, pair_za) :: in_fork Phase0 (tl pair_a)).
  { assert (X : match pair_a with [] => false | _ => true end = true) by (vm_compute; reflexivity). unfold pair_za. destruct pair_a; [discriminate|reflexivity]. }
  assert (Lb : in_fork Phase0 pair_b = (Phase0, pair_zb) :: in_fork Phase0 (tl pair_b)).
  { assert (X : match pair_b with [] => false | _ => true end = true) by (vm_compute; reflexivity). unfold pair_zb. destruct pair_b; [discriminate|reflexivity]. }
  rewrite La in *. rewrite Lb in *.
  destruct (C100_conflicting_finality pair_env (Phase0, pair_start) (Phase0, pair_za) (Phase0, pair_zb) (in_fork Phase0 (tl pair_a)) (in_fork Phase0 (tl pair_b)) [32000000000] 0
    pair_config Ga Gb Sa Sb Hbig) as (c & Nc & Wc & Gc); cbn [snd]; rewrite ?Fa, ?Fb; [discriminate|discriminate|exact Hf|].
  apply Gc. destruct (in_dec N.eq_dec 0 c) as [H|H]; [exact H|]. exfalso.
  assert (Hz : sumN (map (listed [32000000000]) c) = 0).
  { clear - H. induction c as [|x c IH]; [reflexivity|]. cbn [map]. rewrite sumN_cons, IH by (intros X; apply H; right; exact X).
    assert (x <> 0) by (intros ->; apply H; left; reflexivity). unfold listed.
    replace (nthN [32000000000] x) with (@None N); [reflexivity|]. symmetry. apply nthN_none. change (lenN [32000000000]) with 1. clear - H0. lia. }
  rewrite Hz in Wc. vm_compute in Wc. exact (Wc eq_refl).
Qed.
(** the signed vote behind a participation flag, on an altair chain *)
Definition pair_zc : BeaconState := hd (pair_genesis pair_env 1 Altair) pair_c.
Example C101_example : from_genesis pair_env (Altair, pair_genesis pair_env 1 Altair) (Altair, pair_zc) (in_fork Altair (tl pair_c))
  /\ nthN (previous_epoch_participation pair_zc) 0 = Some 3 /\ N.testbit 3 1 = true
  /\ exists ia, signed_on pair_env ((Altair, pair_zc) :: in_fork Altair (tl pair_c)) 0 ia /\ ad_source (ia_data ia) = mkCheckpoint 0 zero32
     /\ ad_target (ia_data ia) = mkCheckpoint 1 (1 :: repeat 0 31).
Proof.
  assert (Hc : fst (pair_run pair_env 1 Altair true [pair_genesis pair_env 1 Altair] [Slot; Slot; Slot; Slot; Blk [3]]) = true) by (vm_compute; reflexivity).
  assert (Gc : from_genesis pair_env (Altair, pair_genesis pair_env 1 Altair) (Altair, pair_zc) (in_fork Altair (tl pair_c))).
  { apply (pair_from Altair [Slot; Slot; Slot; Slot; Blk [3]] pair_c); [right; reflexivity|rewrite <- Hc; apply surjective_pairing| | |].
    - assert (X : match pair_c with [] => false | _ => true end = true) by (vm_compute; reflexivity). unfold pair_zc. destruct pair_c; [discriminate|reflexivity].
    - vm_compute. discriminate.
    - vm_compute. reflexivity. }
  assert (Hp : nthN (previous_epoch_participation pair_zc) 0 = Some 3) by (vm_compute; reflexivity).
  split; [exact Gc|]. split; [exact Hp|]. split; [reflexivity|].
  destruct (proj2 (C101_credit_is_signed pair_env _ Altair pair_zc _ 0 3 1 pair_config Gc ltac:(discriminate)) Hp eq_refl) as (ia & I1 & I2 & I3 & I4).
  exists ia. split; [exact I1|]. split; [rewrite I2; vm_compute; reflexivity|]. specialize (I4 ltac:(discriminate)).
  assert (He : prev_epoch_of pair_env pair_zc = 1) by (vm_compute; reflexivity). rewrite He in I3, I4.
  assert (Hr : recorded_root pair_env pair_zc (1 * SLOTS_PER_EPOCH pair_env) = Some (1 :: repeat 0 31)) by (vm_compute; reflexivity). rewrite Hr in I4. injection I4 as I4.
  destruct (ad_target (ia_data ia)) as [te tr]. cbn [cp_epoch cp_root] in *. subst. reflexivity.
Qed.

Print Assumptions C100_chains_are_walks.
Print Assumptions C101_credit_is_signed.
Print Assumptions C101_phase0_votes_are_signed.
Print Assumptions C101_justified_is_signed.
Print Assumptions C100_accountable_safety.
Print Assumptions C100_conflicting_finality.
Print Assumptions C100_networks.
