(** * The votes a phase0 chain records stay valid (proof file; no model definitions) *)
From Verif Require Import Base BaseLemmas Types Ctx Env Helpers Block Epoch Transition StLemmas Frame
  SpecCommon SpecRegistry SpecHistory HelperProofs HelperProofs2 Upgrade Genesis FrameProofs HistoryProofs SlotProofs SpecFinality FinalityProofs SpecAtt AttProofs SpecDuties LookProofs
  SpecReach ReachShape PropsFinality SpecShuffle.
From Coq Require Import Relations.

Lemma proposer_loop_in (E : Env) s seed cand : forall n r i, proposer_loop E n s seed cand r = Ok i -> i < lenN (validators s).
Proof.
  induction n as [|n IH]; intros r i H; cbn [proposer_loop] in H; [discriminate|]. rinv H.
  match goal with H : sample_proposer_index _ _ _ _ _ = Ok ?b |- _ => rename H into Hs; destruct b end; [|eauto].
  unfold sample_proposer_index in Hs. rinv Hs. rinv H. subst. match goal with H : nthN (validators s) _ = Some _ |- _ => apply nthN_some in H; exact H end.
Qed.
Lemma proposer_in_range (E : Env) s p : get_beacon_proposer_index E s = Ok p -> p < lenN (validators s).
Proof.
  intros H. unfold get_beacon_proposer_index in H. rinv H. unfold compute_proposer_index in H. destruct (get_active_validator_indices s _); [discriminate|].
  destruct (feat_shuffling E); rinv H; eapply proposer_loop_in; exact H.
Qed.

Section Votes.
Context (E : Env).
Hypothesis Hchk : chk E = true.
Hypothesis Hc : ctx_sane E.
Hypothesis Ha : ctx_sane_att E.
Hypothesis Hw : hash_wf (hash E).
Hypothesis HL : MIN_SEED_LOOKAHEAD E <= MAX_SEED_LOOKAHEAD E.
Hypothesis HV : MIN_SEED_LOOKAHEAD E + 3 < EPOCHS_PER_HISTORICAL_VECTOR E.

Lemma votes_kept s t e l : looks E s t -> lenN (validators s) <= lenN (validators t) -> e <= epoch_of E s + MIN_SEED_LOOKAHEAD E -> e < FAR_FUTURE_EPOCH ->
  seed_available E t e -> votes_of_epoch E s e l -> votes_of_epoch E t e l.
Proof.
  intros L Hn He Hf Hs Hl a Hin. destruct (Hl a Hin) as ((A1 & A2 & com & A3 & A4) & A5 & A6 & A7 & A8).
  split; [|split; [exact A5|split; [lia|split; [exact A7|exact A8]]]]. split; [exact A1|].
  destruct (committee_spec_fixed E s t (ad_slot (pa_data a)) (ad_index (pa_data a)) com L HL ltac:(lia) ltac:(rewrite A5; exact He) ltac:(rewrite A5; exact Hf)
    ltac:(rewrite A5; exact Hs)) as [C1 C2].
  rewrite C1. split; [exact A2|]. exists com. split; [apply C2; exact A3|exact A4].
Qed.
Lemma accepted_vote s att b a : state_shape E s -> slot_small s -> attestation_checks_phase0 E att s = Ok (b, a) ->
  votes_of_epoch E s (if b then epoch_of E s else prev_epoch_of E s) [a].
Proof.
  intros Hsh Hs H. assert (Hp : exists p, get_beacon_proposer_index E s = Ok p).
  { unfold attestation_checks_phase0 in H. rinv H. eauto. }
  destruct Hp as [p Hp]. destruct (proj1 (att_phase0_iff E Hc Hw Ha att s p (b, a) Hsh Hs Hp) H) as [(l & Hv) Heq]. injection Heq as -> ->.
  intros a' [<-|[]]. split; [exact (accepted_recorded E Phase0 s att l _ _ Ha Hs Hv)|]. cbn [pa_data pa_proposer_index pa_inclusion_delay].
  destruct Hv as ((T1 & T2 & T3 & _) & _). rewrite <- T2.
  assert (Ht : cp_epoch (ad_target (at_data att)) = if cp_epoch (ad_target (at_data att)) =? epoch_of E s then epoch_of E s else prev_epoch_of E s).
  { destruct (N.eqb_spec (cp_epoch (ad_target (at_data att))) (epoch_of E s)) as [He|He]; [exact He|]. destruct T1; [contradiction|assumption]. }
  split; [exact Ht|]. split; [eapply proposer_in_range; eauto|]. split; [destruct Ha as ((? & _) & _); lia|exact Ht].
Qed.

(** [t] comes after [s] and keeps its votes sound *)
Record votes_on (s t : BeaconState) : Prop := {
  vo_looks : looks E s t;
  vo_len : lenN (validators s) <= lenN (validators t);
  vo_slot : slot s <= slot t;
  vo_sized : vectors_sized E s -> vectors_sized E t;
  vo_votes : vectors_sized E s -> lenN (validators t) <= 2 ^ 40 -> slot t < 2 ^ 56 -> votes_sound E s -> votes_sound E t }.
Lemma votes_on_refl s : votes_on s s. Proof. constructor; auto; [apply looks_refl|lia|lia]. Qed.
Lemma votes_on_trans a b c : votes_on a b -> votes_on b c -> votes_on a c.
Proof.
  intros [A1 A2 A3 A4 A5] [B1 B2 B3 B4 B5]. constructor; [eapply looks_trans; eauto|lia|lia|auto|]. intros H1 H2 H3 H4. apply B5; auto. apply A5; auto; lia.
Qed.
Lemma epoch_bound s : slot s < 2 ^ 56 -> epoch_of E s < 2 ^ 56.
Proof. intros H. unfold epoch_of. eapply N.le_lt_trans; [|exact H]. apply N.div_le_upper_bound; [ctxs Hc; lia|]. ctxs Hc. nia. Qed.

(** lists that shrink while nothing else about the votes changes *)
Lemma votes_on_incl s t : looks E s t -> lenN (validators s) <= lenN (validators t) -> epoch_of E t = epoch_of E s -> slot s <= slot t -> (vectors_sized E s -> vectors_sized E t) ->
  incl (current_epoch_attestations t) (current_epoch_attestations s) -> incl (previous_epoch_attestations t) (previous_epoch_attestations s) -> votes_on s t.
Proof.
  intros L Hn Hee Hs Hz I1 I2. constructor; auto. intros _ _ Hb [V1 V2]. pose proof (epoch_bound t Hb) as He.
  assert (Hpp : prev_epoch_of E t = prev_epoch_of E s) by (unfold prev_epoch_of; rewrite Hee; reflexivity).
  assert (Hpe : prev_epoch_of E s <= epoch_of E s <= prev_epoch_of E s + 1) by (unfold prev_epoch_of; lia).
  assert (Hf : epoch_of E s < FAR_FUTURE_EPOCH) by (unfold FAR_FUTURE_EPOCH; rewrite <- Hee; eapply N.lt_trans; [exact He|reflexivity]).
  split; [rewrite Hee|rewrite Hpp]; intros a Hin.
  - apply (votes_kept s t (epoch_of E s) (current_epoch_attestations s) L Hn); auto; [lia|unfold seed_available; lia].
  - apply (votes_kept s t (prev_epoch_of E s) (previous_epoch_attestations s) L Hn); auto; [lia|lia|unfold seed_available; lia].
Qed.
Lemma votes_of_snoc s e l a : votes_of_epoch E s e l -> votes_of_epoch E s e [a] -> votes_of_epoch E s e (l ++ [a]).
Proof. intros H1 H2 x Hx. apply in_app_or in Hx as [Hx|Hx]; auto. Qed.

Lemma votes_on_prim s t : prim E Phase0 LBlock s t -> votes_on s t.
Proof.
  intros H. assert (Hev : evo E Phase0 LBlock s t) by (apply evo_prim; exact H).
  pose proof (looks_prim E Hchk Phase0 LBlock s t H) as L. pose proof (evo_sized E Phase0 s t (evo_all_of E Phase0 LBlock s t Hev)) as Hz.
  destruct (frame_shape E Phase0 s t (evo_all_of E Phase0 LBlock s t Hev)) as (_ & _ & _ & _ & _ & Hlen).
  pose proof (frame_slot E Phase0 LBlock s t Hev ltac:(discriminate)) as Hs.
  assert (Hee : epoch_of E t = epoch_of E s) by (unfold epoch_of; rewrite Hs; reflexivity). assert (Hsl : slot s <= slot t) by lia.
  inversion H; subst; try (apply votes_on_incl; try assumption; gs; apply incl_refl).
  - (* a vote for the current epoch *)
    constructor; try assumption. intros Z Hn Hb [V1 V2]. gsh Hb. gsh Hn.
    assert (Hsh : state_shape E s) by (destruct Z as (? & ? & ? & ? & ?); repeat split; assumption).
    pose proof (accepted_vote s att true a Hsh Hb ltac:(assumption)) as Hv.
    split; [|exact V2]. change (votes_of_epoch E s (epoch_of E s) (current_epoch_attestations s ++ [a])). apply votes_of_snoc; assumption.
  - constructor; try assumption. intros Z Hn Hb [V1 V2]. gsh Hb. gsh Hn.
    assert (Hsh : state_shape E s) by (destruct Z as (? & ? & ? & ? & ?); repeat split; assumption).
    pose proof (accepted_vote s att false a Hsh Hb ltac:(assumption)) as Hv.
    split; [exact V1|]. change (votes_of_epoch E s (prev_epoch_of E s) (previous_epoch_attestations s ++ [a])). apply votes_of_snoc; assumption.
Qed.
Lemma votes_on_evo s t : evo E Phase0 LBlock s t -> votes_on s t.
Proof. intros H. induction H as [a b Hp|a|a b c H1 IH1 H2 IH2]; [apply votes_on_prim; exact Hp|apply votes_on_refl|eapply votes_on_trans; eauto]. Qed.

(** epoch processing only drops votes *)
Definition drops (s t : BeaconState) : Prop :=
  incl (current_epoch_attestations t) (current_epoch_attestations s).
Lemma drops_evo fin s t : evo E Phase0 (LEpoch fin) s t -> drops s t.
Proof.
  intros H. induction H as [a b Hp|a|a b c H1 IH1 H2 IH2]; [|apply incl_refl|eapply incl_tran; eauto].
  unfold drops. inversion Hp; subst; gs; try apply incl_refl. intros x [].
Qed.
Lemma drops_of {A} (m : St BeaconState A) s r t : evp E Phase0 (LEpoch true) m -> m s = (r, t) -> drops s t.
Proof. intros H Hm. specialize (H s). rewrite Hm in H. eapply drops_evo; exact H. Qed.
Lemma epoch_votes s t : process_epoch E Phase0 s = (Ok tt, t) ->
  current_epoch_attestations t = [] /\ incl (previous_epoch_attestations t) (current_epoch_attestations s).
Proof.
  intros H. unfold process_epoch in H. cbn [swhen fork_le fork_num] in H. sinv H.
  repeat match goal with
  | H : process_justification_and_finalization _ _ _ = _ |- _ => apply drops_of in H; [|apply evp_jf]
  | H : process_rewards_and_penalties _ _ _ = _ |- _ => apply drops_of in H; [|apply evp_rewards]
  | H : process_registry_updates _ _ _ = _ |- _ => apply drops_of in H; [|apply evp_registry]
  | H : process_slashings _ _ _ = _ |- _ => apply drops_of in H; [|apply evp_slashings]
  | H : process_eth1_data_reset _ _ = _ |- _ => apply drops_of in H; [|apply evp_eth1_reset]
  | H : process_effective_balance_updates _ _ _ = _ |- _ => apply drops_of in H; [|apply evp_effective]
  | H : process_slashings_reset _ _ = _ |- _ => apply drops_of in H; [|apply evp_slashings_reset]
  | H : process_randao_mixes_reset _ _ = _ |- _ => apply drops_of in H; [|apply evp_randao_reset]
  | H : process_historical_update _ _ _ = _ |- _ => apply drops_of in H; [|apply evp_historical]
  end.
  unfold process_participation_record_updates, md in H. injection H as <-. gs. split; [reflexivity|].
  repeat match goal with H : swhen _ _ ?a = (_, ?b) |- _ => cbn [swhen fork_le fork_num N.leb N.compare] in H; unfold sret in H; injection H as _ H; try subst b end.
  unfold drops in *. eauto 30 using incl_tran.
Qed.
Lemma slot_lists s r t : process_slot E Phase0 s = (r, t) -> current_epoch_attestations t = current_epoch_attestations s /\ previous_epoch_attestations t = previous_epoch_attestations s.
Proof.
  intros H. pose proof (evp_slot E Phase0 s) as P. rewrite H in P. cbn [snd] in P. clear H.
  induction P as [a b Hp|a|a b c H1 [I1 I2] H2 [J1 J2]]; [inversion Hp; subst; gs; auto|auto|split; congruence].
Qed.
Lemma votes_on_advance s t : advance_slot E Phase0 s = (Ok tt, t) -> votes_on s t.
Proof.
  intros H. pose proof (evpa_advance E Phase0 s) as P. rewrite H in P. cbn [snd] in P.
  pose proof (looks_evo E Hchk _ _ _ P) as L. pose proof (evo_sized E Phase0 s t P) as Hz.
  destruct (frame_shape E Phase0 s t P) as (_ & _ & _ & _ & _ & Hlen). clear P.
  unfold advance_slot in H. sinv H.
  match goal with H : process_slot E _ s = (_, ?x) |- _ => rename x into s1; rename H into Hps end.
  assert (Hs1 : slot s1 = slot s) by (apply slot_frame in Hps; apply Hps). apply slot_lists in Hps as [C1 C2].
  rinv H1. rename H1 into Hm. rename H0 into Hn.
  apply (add_exact E _ _ _ Hchk) in Hn. subst. unfold umod in Hm. destruct (N.eqb_spec (SLOTS_PER_EPOCH E) 0) as [|Hzz]; [discriminate|]. apply Ok_inj in Hm. subst.
  rewrite Hs1 in *. destruct (N.eqb_spec ((slot s + 1) mod SLOTS_PER_EPOCH E) 0) as [Hm|Hm]; cbn [swhen] in *.
  - match goal with H : process_epoch E Phase0 s1 = (Ok ?u, ?y) |- _ => destruct u; rename H into Hpe; rename y into s2 end.
    pose proof (evp_epoch E Phase0 s1) as Q. rewrite Hpe in Q. cbn [snd] in Q. apply frame_slot in Q; [|discriminate].
    apply epoch_votes in Hpe as [D1 D2]. rewrite C1 in D2.
    match goal with H : add E _ 1 = Ok _ |- _ => apply (add_exact E _ _ _ Hchk) in H; subst end. rewrite Q, Hs1 in *.
    assert (He : epoch_of E (set_slot (slot s + 1) s2) = epoch_of E s + 1).
    { unfold epoch_of. gs. pose proof (N.div_mod' (slot s + 1) (SLOTS_PER_EPOCH E)) as Hd. rewrite Hm in Hd. set (q := (slot s + 1) / SLOTS_PER_EPOCH E) in *.
      assert (Hq : slot s / SLOTS_PER_EPOCH E = q - 1); [|assert (1 <= q) by (destruct q; lia); lia].
      symmetry. apply (N.div_unique _ _ _ (SLOTS_PER_EPOCH E - 1)); [lia|]. clearbody q. destruct (N.le_gt_cases q 0); [lia|]. rewrite N.mul_sub_distr_l. nia. }
    constructor; try assumption; [gs; lia|]. intros _ _ Hb [V1 V2]. pose proof (epoch_bound _ Hb) as Hbe.
    assert (Hp : prev_epoch_of E (set_slot (slot s + 1) s2) = epoch_of E s) by (unfold prev_epoch_of; rewrite He; lia).
    split; [gs; rewrite D1; intros a []|]. gs. rewrite Hp. intros a Hin.
    apply (votes_kept s _ (epoch_of E s) (current_epoch_attestations s) L Hlen); auto; [lia|rewrite He in Hbe; unfold FAR_FUTURE_EPOCH; pows; lia|].
    unfold seed_available. rewrite He. lia.
  - sinv H2. match goal with H : add E _ 1 = Ok _ |- _ => apply (add_exact E _ _ _ Hchk) in H; subst end. rewrite Hs1 in *.
    apply votes_on_incl; try assumption; gs; [|lia|rewrite C1; apply incl_refl|rewrite C2; apply incl_refl].
    unfold epoch_of. gs. pose proof (N.div_mod' (slot s + 1) (SLOTS_PER_EPOCH E)) as Hd. pose proof (N.mod_lt (slot s + 1) (SLOTS_PER_EPOCH E) Hzz).
    apply (N.div_unique _ _ _ ((slot s + 1) mod SLOTS_PER_EPOCH E - 1)); lia.
Qed.
Lemma votes_on_loop n target : forall s t, slots_loop E Phase0 n target s = (Ok tt, t) -> votes_on s t.
Proof.
  induction n as [|n IH]; intros s t H; cbn [slots_loop] in H; sinv H; destruct (_ <? target).
  1: sinv H; discriminate.
  1, 3: unfold sret in H; injection H as <-; apply votes_on_refl.
  sinv H. match goal with H : advance_slot E Phase0 s = (Ok ?u, _) |- _ => destruct u; apply votes_on_advance in H end.
  eapply votes_on_trans; eauto.
Qed.
Lemma votes_on_slots target s t : process_slots E Phase0 target s = (Ok tt, t) -> votes_on s t.
Proof. intros H. unfold process_slots in H. sinv H. destruct (target <=? _); sinv H; [discriminate|]. eapply votes_on_loop; eauto. Qed.
Lemma votes_on_block b s : votes_on s (snd (process_block E Phase0 b s)).
Proof. apply votes_on_evo, evp_block. Qed.
Lemma votes_on_transition v sb s t : state_transition E Phase0 v sb s = (Ok tt, t) -> votes_on s t.
Proof.
  intros H. unfold state_transition in H. sinv H. match goal with H : process_slots E Phase0 _ s = (Ok ?u, _) |- _ => destruct u; apply votes_on_slots in H end.
  eapply votes_on_trans; [eassumption|]. unfold state_transition_block_in_slot in H. sinv H.
  match goal with H : swhen v _ ?x = (Ok _, ?y) |- votes_on ?x _ => assert (y = x) by (destruct v; cbn [swhen] in H; sinv H; reflexivity); subst y end.
  match goal with H : process_block E Phase0 ?b ?x = (_, ?y) |- _ => pose proof (votes_on_block b x) as Q; rewrite H in Q; cbn [snd] in Q end.
  destruct v; cbn [swhen] in H; [sinv H|unfold sret in H; injection H as <-]; exact Q.
Qed.
Lemma chain_call_fork p p' : chain_call E p p' -> fork_num (fst p) <= fork_num (fst p') /\ (fst p' = Phase0 -> fst p = Phase0).
Proof. intros H; inversion H; subst; cbn [fst fork_num]; split; try lia; try discriminate; auto. Qed.
Lemma votes_on_call p p' : chain_call E p p' -> fst p' = Phase0 -> fst p = Phase0 /\ votes_on (snd p) (snd p').
Proof.
  intros H; inversion H; subst; cbn [fst snd]; intros Hf; try discriminate; subst; (split; [reflexivity|]).
  - eapply votes_on_transition; eassumption.
  - eapply votes_on_slots; eassumption.
  - pose proof (votes_on_block b s) as Q. rewrite H0 in Q. exact Q.
Qed.
Lemma votes_on_chain p p' : SpecFinality.chain E p p' -> fst p' = Phase0 -> fst p = Phase0 /\ votes_on (snd p) (snd p').
Proof.
  induction 1 as [a b H|a|a b c H1 IH1 H2 IH2]; intros Hf; [apply votes_on_call; assumption|split; [exact Hf|apply votes_on_refl]|].
  destruct (IH2 Hf) as [Hb V2]. destruct (IH1 Hb) as [Hc' V1]. split; [exact Hc'|eapply votes_on_trans; eauto].
Qed.

End Votes.

(** ** The genesis state has no votes: at slot 0 no vote is old enough *)
Section Fresh.
Context (E : Env).
Hypothesis Hc : ctx_sane E.
Hypothesis Ha : ctx_sane_att E.
Definition fresh (s : BeaconState) : Prop := slot s = 0 /\ current_epoch_attestations s = [] /\ previous_epoch_attestations s = []
  /\ previous_justified_checkpoint s = zero_checkpoint /\ current_justified_checkpoint s = zero_checkpoint /\ finalized_checkpoint s = zero_checkpoint
  /\ justification_bits s = [false; false; false; false]
  /\ (forall p, In p (current_epoch_participation s) \/ In p (previous_epoch_participation s) -> p = 0).
Lemma no_vote_yet s att r : slot s = 0 -> attestation_checks_phase0 E att s = Ok r -> False.
Proof.
  intros Hs H. unfold attestation_checks_phase0 in H. rinv H. match goal with H : attestation_window _ _ _ _ = Ok _ |- _ => apply window_iff in H as [(_ & _ & Ht & _) _] end;
    try assumption; [destruct Ha as ((? & _) & _); lia|unfold slot_small; rewrite Hs; pows; lia].
Qed.
Lemma no_credit_yet f s att r : slot s = 0 -> attestation_checks E f att s = Ok r -> False.
Proof.
  intros Hs H. unfold attestation_checks in H. rinv H. match goal with H : attestation_window _ _ _ _ = Ok _ |- _ => apply window_iff in H as [(_ & _ & Ht & _) _] end;
    try assumption; [destruct Ha as ((? & _) & _); lia|unfold slot_small; rewrite Hs; pows; lia].
Qed.
Lemma fresh_evo f s t : evo E f LBlock s t -> fresh s -> fresh t.
Proof.
  intros H. induction H as [a b Hp|a|a b c H1 IH1 H2 IH2]; [|auto|auto]. intros (F1 & F2 & F3 & F4 & F5 & F6 & F7 & F8). unfold fresh.
  inversion Hp; subst; gs; auto 9; try (exfalso; eapply no_vote_yet; eassumption); try (exfalso; eapply no_credit_yet; eassumption).
  unfold register. destruct (fork_le Altair f); gs; auto 9. repeat (split; [assumption|]).
  intros p [Hin|Hin]; apply in_app_or in Hin as [Hin|[<-|[]]]; auto.
Qed.
Definition fs {A} (m : St BeaconState A) : Prop := pres (fun s t => fresh s -> fresh t) m.
Lemma fs_refl s : fresh s -> fresh s. Proof. auto. Qed.
Lemma fs_trans (a b c : BeaconState) : (fresh a -> fresh b) -> (fresh b -> fresh c) -> fresh a -> fresh c. Proof. auto. Qed.
Lemma fs_bind {A B} (m : St BeaconState A) (k : A -> St BeaconState B) : fs m -> (forall a, fs (k a)) -> fs (sbind m k).
Proof. apply pres_bind. exact fs_trans. Qed.
Lemma fs_md g : (forall s, fresh s -> fresh (g s)) -> fs (md g). Proof. intros H s. apply H. Qed.
Lemma fs_mod i g : fs (mod_validator i g).
Proof. unfold mod_validator. apply fs_bind; [apply pres_rd; exact fs_refl|]. intros v. apply fs_md. intros s H. exact H. Qed.
Lemma fs_evo {A} f (m : St BeaconState A) : evp E f LBlock m -> fs m.
Proof. intros H s. apply (fresh_evo f). apply H. Qed.
Ltac fss := repeat match goal with
  | |- forall _, _ => intro
  | |- pres (fun s t => fresh s -> fresh t) ?m => change (fs m)
  | |- fs (sbind _ _) => apply fs_bind | |- fs (rd _) => apply pres_rd; exact fs_refl | |- fs (lift _) => apply pres_lift; exact fs_refl
  | |- fs (sret _) => apply pres_ret; exact fs_refl
  | |- fs (swhen _ _) => apply pres_when; [exact fs_refl|] | |- fs (sfor _ _) => apply pres_for; [exact fs_refl|exact fs_trans|] | |- fs (mod_validator _ _) => apply fs_mod
  | |- fs (match ?x with _ => _ end) => destruct x
  | |- fs (md _) => apply fs_md; intros ? H; exact H end.
Lemma fs_genesis f ds : forall l, fs (genesis_deposits E f ds l).
Proof.
  induction ds as [|d ds IH]; intros l; cbn [genesis_deposits]; [fss|]. cbn zeta. apply fs_bind; [fss|]. intros r.
  apply fs_bind; [fss|]. intros _. apply fs_bind; [apply (fs_evo f), evp_deposit|]. intros _. apply IH.
Qed.
Lemma fs_steps f ds : fs (genesis_steps E f ds).
Proof.
  unfold genesis_steps. apply fs_bind; [apply fs_genesis|]. intros _. unfold genesis_drain_pending, genesis_activation_step.
  apply fs_bind; [apply pres_when; [exact fs_refl|]; apply fs_bind; [fss|]; intros l; apply fs_bind; [fss|]; intros _; apply pres_for; [exact fs_refl|exact fs_trans|];
    intros d; apply (fs_evo f), evp_increase|].
  intros _. fss.
Qed.
Lemma genesis_fresh f bh ts ds h s : initialize_beacon_state_from_eth1 E f bh ts ds h = Ok s -> fresh s.
Proof.
  intros H. unfold initialize_beacon_state_from_eth1 in H. rinv H.
  match goal with H : (let (_, _) := genesis_steps E f ds ?b in _) = _ |- _ => pose proof (fs_steps f ds b) as Hf; destruct (genesis_steps E f ds b) as [r p] end.
  rinv H. cbn [snd] in Hf. subst. apply Hf. unfold fresh. repeat split. intros p [[]|[]].
Qed.
End Fresh.
