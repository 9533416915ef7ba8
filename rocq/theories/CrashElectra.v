(** * Proofs that electra block processing does not crash (proof file; no model definitions) *)
From Verif Require Import Base BaseLemmas Types Ctx Env Helpers HelpersAltair HelpersElectra Block Epoch Transition StLemmas
  SpecCommon SpecShuffle SpecHelpers SpecElectra SpecOps SpecBlock SpecAtt SpecFlow SpecFinality SpecSlots SpecEpoch SpecRegistry SpecQueues SpecPhase0 SpecTotal SpecUpgrade SpecCrash
  ShuffleProofs HelperProofs HelperProofs2 OpsProofs ElectraProofs SlashProofs AttProofs BlockProofs FlowProofs FinalityProofs EpochProofs RegistryProofs RewardProofs PeriodicProofs QueueProofs QueueProofs2 SlotProofs Phase0Proofs TotalProofs CrashProofs.

Lemma sum_c {X} c (l : list X) : sumN (map (fun _ => c) l) = c * lenN l.
Proof. induction l as [|x l IH]; [cbn [map]; change (lenN (@nil X)) with 0; change (sumN []) with 0; lia|]. cbn [map]. rewrite sumN_cons, lenN_cons, IH. lia. Qed.

Section C.
Variable E : Env.
Hypothesis Hctx : ctx_sane E.
Hypothesis Hwf : hash_wf (hash E).
Hypothesis Hatt : ctx_sane_att E.
Hypothesis Hel : ctx_sane_electra E.
Hypothesis Hm : mainnet_scale E.
Hypothesis Hbs : block_scale E.
Hypothesis Hrw : roots_wide E.
Hypothesis Hfuel : N.of_nat (fuel E) < 2 ^ 60.
Hypothesis Hq : forall f, slashing_quotients_pos E f.

(** apply a lemma of [CrashProofs] and discharge its section hypotheses *)
Ltac ap L := eapply L; try first [exact Hctx|exact Hwf|exact Hatt|exact Hel|exact Hm|exact Hbs|exact Hrw|exact Hfuel|exact Hq].

Notation blk := (blk E Electra).
Notation blkE := (blkE E Electra).

Lemma ble L n m d g s : m <= n -> blk L n d g s -> blk L m d g s. Proof. ap blk_le. Qed.

(** ** attestations *)
Lemma indices_from bits : forall k, (forall i, In i (committee_indices_from bits k) -> k <= i) /\ NoDup (committee_indices_from bits k).
Proof.
  induction bits as [|b bits IH]; intros k; cbn [committee_indices_from]; [split; [intros i []|constructor]|].
  destruct (IH (k + 1)) as [H1 H2]. destruct b.
  - split; [intros i [<-|Hi]; [lia|]; specialize (H1 i Hi); lia|]. constructor; [|exact H2]. intros Hi. specialize (H1 k Hi). lia.
  - split; [intros i Hi; specialize (H1 i Hi); lia|exact H2].
Qed.
Lemma committee_nonempty s sl c seed : state_shape E s -> 2 <= committees_per_slot E s (sl / SLOTS_PER_EPOCH E) -> c < committees_per_slot E s (sl / SLOTS_PER_EPOCH E) ->
  1 <= lenN (beacon_committee E s sl c seed).
Proof.
  intros Hsh H2 Hc. unfold beacon_committee. cbv zeta. set (e := sl / SLOTS_PER_EPOCH E) in *. set (A := active_set s e).
  set (cps := committees_per_slot E s e) in *. set (r := sl mod SLOTS_PER_EPOCH E).
  assert (Hspe : 1 <= SLOTS_PER_EPOCH E) by (clear - Hctx; ctxs Hctx; lia). assert (Ht : 1 <= TARGET_COMMITTEE_SIZE E) by (clear - Hctx; ctxs Hctx; lia).
  assert (Hr : r < SLOTS_PER_EPOCH E) by (apply N.mod_lt; lia).
  assert (Hn : cps * SLOTS_PER_EPOCH E <= lenN A).
  { assert (Hle : cps <= lenN A / SLOTS_PER_EPOCH E / TARGET_COMMITTEE_SIZE E) by (unfold cps, committees_per_slot in H2 |- *; fold A in H2 |- *; set (Q := _ / TARGET_COMMITTEE_SIZE E) in *; clearbody Q; clear - H2; lia).
    assert (H1 : lenN A / SLOTS_PER_EPOCH E / TARGET_COMMITTEE_SIZE E <= lenN A / SLOTS_PER_EPOCH E) by (apply N.div_le_upper_bound; [lia|]; set (Q := lenN A / _); clearbody Q; nia).
    pose proof (N.mul_div_le (lenN A) (SLOTS_PER_EPOCH E) ltac:(lia)) as H3. set (Q := lenN A / SLOTS_PER_EPOCH E) in *. set (Q2 := Q / _) in *. clearbody Q Q2 cps. nia. }
  assert (Hal : lenN A <= 2 ^ 40) by (pose proof (active_set_le s e); destruct Hsh as (_ & _ & _ & _ & _ & Hv); fold A in H; lia).
  destruct (committee_of_spec E Hctx A seed (r * cps + c) (cps * SLOTS_PER_EPOCH E)) as [Hlen _]; [nia|nia|exact Hal|]. rewrite Hlen.
  set (C := cps * SLOTS_PER_EPOCH E) in *. assert (HC : C <> 0) by (unfold C; nia). set (i := r * cps + c). set (n := lenN A) in *. clearbody n C i.
  assert (H1 : (n * i + 1 * C) / C = n * i / C + 1) by (apply N.div_add; exact HC).
  assert (H4 : (n * i + 1 * C) / C <= n * (i + 1) / C) by (apply N.div_le_mono; [exact HC|lia]). lia.
Qed.
Definition com_ok s sl c com : Prop := get_beacon_committee E s sl c = Ok com.
Lemma np_participants s a : state_shape E s -> ad_slot (at_data a) < 2 ^ 60 -> cp_epoch (ad_target (at_data a)) = ad_slot (at_data a) / SLOTS_PER_EPOCH E ->
  let count := committees_per_slot E s (cp_epoch (ad_target (at_data a))) in
  forall cs acc, np (rfold (fun acc i =>
        let! _ := require (i <? count) EAttInvalidIndex in
        let! committee := get_beacon_committee E s (ad_slot (at_data a)) i in
        Ok (acc + lenN committee)) cs acc)
    (fun total => exists coms, Forall2 (com_ok s (ad_slot (at_data a))) cs coms /\ total = acc + sumN (map lenN coms)
       /\ (forall i, In i cs -> i < count) /\ (2 <= count -> forall com, In com coms -> 1 <= lenN com)).
Proof.
  intros Hsh Hsl Hte count. induction cs as [|c cs IH]; intros acc; cbn [rfold].
  - exists []. split; [constructor|]. split; [change (sumN (map lenN [])) with 0; lia|]. split; [intros i []|intros _ com []].
  - unfold require at 1. destruct (N.ltb_spec c count) as [Hc|Hc]; [|exact I]. cbn [rbind]. pose proof Hc as Hc'. unfold count in Hc'. rewrite Hte in Hc'.
    destruct (get_beacon_committee_ok E Hctx Hwf s (ad_slot (at_data a)) c Hsh Hsl Hc') as (mix & _ & Hcom). rewrite Hcom. cbn [rbind].
    eapply np_imp; [apply IH|]. intros total (coms & HF & -> & Hlt & Hne). eexists (_ :: coms). split; [constructor; [exact Hcom|exact HF]|].
    split; [cbn [map]; rewrite sumN_cons; lia|]. split; [intros i [<-|Hi]; [exact Hc|auto]|].
    intros H2 com [<-|Hin]; [|auto]. apply committee_nonempty; [exact Hsh|unfold count in H2; rewrite Hte in H2; exact H2|exact Hc'].
Qed.
Lemma sum_ge (coms : list (list N)) : (forall com, In com coms -> 1 <= lenN com) -> forall m com, nthN coms m = Some com -> m + lenN com <= sumN (map lenN coms).
Proof.
  intros H. induction coms as [|c coms IH]; intros m com Hn; [rewrite nthN_nil in Hn; discriminate|]. cbn [map]. rewrite sumN_cons, nthN_cons in *.
  assert (Hc : 1 <= lenN c) by (apply H; left; reflexivity). destruct (N.eqb_spec m 0) as [->|Hm0]; [injection Hn as ->; lia|].
  specialize (IH ltac:(intros com' Hin; apply H; right; exact Hin) (m - 1) com Hn). lia.
Qed.
Lemma nodup_zero (cs : list N) : NoDup cs -> (forall i, In i cs -> i = 0) -> lenN cs <= 1.
Proof.
  intros Hnd Hz. destruct cs as [|x [|y cs]]; [vm_compute; discriminate|vm_compute; discriminate|]. exfalso. inversion Hnd as [|? ? Hnx _]; subst.
  apply Hnx. rewrite (Hz x ltac:(left; reflexivity)), (Hz y ltac:(right; left; reflexivity)). left. reflexivity.
Qed.
Lemma np_att_committee_electra a s : state_shape E s -> slot_small s -> attestation_timely E Electra s (at_data a) ->
  np (attestation_committee_checks_electra E a s) (fun _ => exists l, get_attesting_indices_electra E s a = Ok l /\ NoDup l).
Proof.
  intros Hsh Hs (_ & Hte & Hlo & _). unfold attestation_committee_checks_electra. cbv zeta. apply np_req. intros _. rewrite (committee_count_ok E Hctx). cbn [rbind].
  set (cs := get_committee_indices (at_committee_bits a)).
  eapply np_bind; [apply (np_participants s a Hsh); [unfold slot_small in Hs; pows; lia|exact Hte]|]. intros total (coms & HF & -> & Hlt & Hne). cbv beta.
  apply np_require. intros Hlen. apply N.eqb_eq in Hlen. rewrite N.add_0_l in Hlen.
  destruct (indices_from (at_committee_bits a) 0) as [_ Hnd]. fold (get_committee_indices (at_committee_bits a)) in Hnd. fold cs in Hnd.
  destruct (attesting_electra_ok E s a coms HF) as (l & Hl & _).
  { intros m com Hmc. rewrite Hlen. set (count := committees_per_slot E s (cp_epoch (ad_target (at_data a)))) in *.
    destruct (N.leb_spec 2 count) as [H2|H2]; [apply sum_ge; [exact (Hne H2)|exact Hmc]|].
    assert (Hone : lenN cs <= 1) by (apply nodup_zero; [exact Hnd|]; intros i Hi; specialize (Hlt i Hi); lia).
    assert (Hlc : lenN coms = lenN cs) by (unfold lenN; f_equal; symmetry; clear - HF; induction HF; cbn; congruence).
    pose proof (nthN_some _ _ _ Hmc) as Hml. assert (m = 0) by lia. subst m. destruct coms as [|c0 coms]; [rewrite nthN_nil in Hmc; discriminate|].
    rewrite nthN_0 in Hmc. injection Hmc as ->. cbn [map]. rewrite sumN_cons. lia. }
  exists l. split; [exact Hl|]. unfold get_attesting_indices_electra in Hl. apply rbind_ok_inv in Hl as (l0 & _ & Hl). apply Ok_inj in Hl. subst l. apply NoDup_dedupN.
Qed.
Lemma np_att_checks_electra L n d g a s : blk L n d g s ->
  np (attestation_checks E Electra a s) (fun r => NoDup (snd r) /\ forall i, In i (snd r) -> i < L).
Proof.
  intros K. pose proof (k_shape _ _ _ _ _ _ _ K) as Hsh. pose proof (k_slot _ _ _ _ _ _ _ K) as Hs. unfold attestation_checks. cbv zeta.
  apply (np_bind _ _ (fun _ => attestation_timely E Electra s (at_data a))); [ap np_window; exact Hs|]. intros cur Ht.
  eapply np_bind; [apply np_att_committee_electra; eassumption|]. intros _ (l & Hl & Hnd).
  apply (np_bind _ _ (fun x => x = slot s - ad_slot (at_data a))); [apply np_sub; [destruct Ht as (_ & _ & Ht & _); lia|reflexivity]|]. intros x ->.
  apply np_skip.
  { destruct (flags_iff E Hctx Hatt Electra s (at_data a) Hsh Hs Ht) as [F1 F2].
    destruct (checkpoint_dec (ad_source (at_data a)) (justified_for E s (at_data a))) as [He|He]; [destruct (F2 He) as (fl & -> & _); exact I|rewrite (F1 He); exact I]. }
  intros fl. apply (np_bind _ _ (fun ia => ia_attesting_indices ia = isort l)).
  { unfold get_indexed_attestation_electra. rewrite Hl. cbn [rbind]. destruct (_ <? _); [exact I|reflexivity]. }
  intros ia Hia. apply (np_bind _ _ (fun _ => forall i, In i (ia_attesting_indices ia) -> i < lenN (validators s))); [ap np_indexed; exact (fun H => H)|].
  intros _ Hin. rewrite Hl. cbn [rbind]. apply np_ok. cbn [snd]. split; [exact Hnd|]. intros i Hi. rewrite <- (k_L _ _ _ _ _ _ _ K). apply Hin. rewrite Hia. apply In_isort. exact Hi.
Qed.
Lemma safe_att_electra L n d g a : safe (blk L (n + 16) d g) (process_attestation E Electra a) (fun _ => blk L n d g).
Proof.
  ap safe_att_altair; [discriminate|]. intros s K. eapply np_att_checks_electra. exact K.
Qed.

(** ** withdrawals *)
Lemma np_partials s epoch vi B : lenN (balances s) = lenN (validators s) -> B < U64 -> forall l wi acc,
  (forall w, In w l -> ppw_index w < lenN (validators s)) -> wi + lenN l <= B -> vi < lenN (validators s) ->
  (forall w, In w acc -> w_validator_index w < lenN (validators s) /\ w_index w < B) ->
  np (partials E s epoch vi l wi acc) (fun p => fst p <= wi + lenN l /\ lenN (snd p) <= lenN acc + lenN l
     /\ forall w, In w (snd p) -> w_validator_index w < lenN (validators s) /\ w_index w < B).
Proof.
  intros Hl HB. induction l as [|w l IH]; intros wi acc Hin Hwi Hvi Hacc; cbn [partials].
  - change (lenN (@nil PendingPartialWithdrawal)) with 0. cbn [np fst snd]. split; [lia|split; [lia|exact Hacc]].
  - rewrite lenN_cons in *. destruct (_ || _); [cbn [np fst snd]; split; [lia|split; [lia|exact Hacc]]|].
    assert (Hiw : ppw_index w < lenN (validators s)) by (apply Hin; left; reflexivity).
    eapply np_bind; [apply np_idx; [exact Hiw|intros x Hx; exact I]|]. intros v _.
    eapply np_bind; [apply np_idx; [rewrite Hl; exact Hiw|intros x Hx; exact I]|]. intros b _.
    destruct (_ && _) eqn:Hc.
    + apply andb_true_iff in Hc as [_ Hc]. apply N.ltb_lt in Hc. apply np_skip; [apply np_sub; [lia|exact I]|]. intros ex.
      apply (np_bind _ _ (fun x => x = wi + 1)); [apply np_add; [rewrite U64_val in *; lia|reflexivity]|]. intros x ->.
      eapply np_imp; [apply IH; [intros w' Hw'; apply Hin; right; exact Hw'|lia|exact Hvi|]|].
      * intros w' Hw'. apply in_app_iff in Hw' as [Hw'|[<-|[]]]; [exact (Hacc w' Hw')|]. cbn. split; [exact Hvi|lia].
      * intros p (H1 & H2 & H3). rewrite lenN_app in H2. change (lenN [_]) with 1 in H2. split; [lia|split; [lia|exact H3]].
    + eapply np_imp; [apply IH; [intros w' Hw'; apply Hin; right; exact Hw'|lia|exact Hvi|exact Hacc]|]. intros p (H1 & H2 & H3). split; [lia|split; [lia|exact H3]].
Qed.
Lemma np_sweep f s B : lenN (balances s) = lenN (validators s) -> lenN (validators s) <= 2 ^ 40 -> B < U64 -> forall n wi vi acc,
  vi < lenN (validators s) -> wi + N.of_nat n <= B -> (forall w, In w acc -> w_validator_index w < lenN (validators s) /\ w_index w < B) ->
  np (sweep E f n s (epoch_of E s) wi vi acc) (fun ws => forall w, In w ws -> w_validator_index w < lenN (validators s) /\ w_index w < B).
Proof.
  intros Hl H40 HB. induction n as [|n IH]; intros wi vi acc Hvi Hwi Hacc; cbn [sweep]; [exact Hacc|].
  eapply np_bind; [apply np_idx; [exact Hvi|intros x Hx; exact I]|]. intros v _.
  eapply np_bind; [apply np_idx; [rewrite Hl; exact Hvi|intros x Hx; exact I]|]. intros b _.
  rewrite sweep_amount_ok. cbn [rbind].
  apply (np_bind _ _ (fun r => fst r <= wi + 1 /\ forall w, In w (snd r) -> w_validator_index w < lenN (validators s) /\ w_index w < B)).
  { destruct (sweep_due E f s v b) as [a|]; [|cbn [np fst snd]; split; [lia|exact Hacc]].
    apply (np_bind _ _ (fun x => x = wi + 1)); [apply np_add; [rewrite U64_val in *; lia|reflexivity]|]. intros x ->. cbn [np fst snd]. split; [lia|].
    intros w' Hw'. apply in_app_iff in Hw' as [Hw'|[<-|[]]]; [exact (Hacc w' Hw')|]. cbn. split; [exact Hvi|lia]. }
  intros [wi' acc'] [H1 H2]. cbn [fst snd] in *. destruct (_ =? _); [exact H2|].
  apply (np_bind _ _ (fun x => x = vi + 1)); [apply np_add; [rewrite U64_val; pows; lia|reflexivity]|]. intros x ->.
  apply (np_bind _ _ (fun x => x < lenN (validators s))); [apply np_mod; [lia|apply N.mod_lt; lia]|]. intros vi' Hvi'.
  apply IH; [exact Hvi'|lia|exact H2].
Qed.
Lemma pending_skip s k L : pending_sound s L -> pending_sound (set_pending_partial_withdrawals (skipN k (pending_partial_withdrawals s)) s) L.
Proof.
  intros [P1 P2]. split; gs.
  - intros w Hw. apply P1. unfold skipN in Hw. rewrite <- (firstn_skipn (N.to_nat k) (pending_partial_withdrawals s)). apply in_app_iff. right. exact Hw.
  - intros i. specialize (P2 i). unfold pending_balance_of in *. gs. unfold skipN.
    rewrite <- (firstn_skipn (N.to_nat k) (pending_partial_withdrawals s)), filter_app, map_app, sumN_app in P2. lia.
Qed.
Lemma last_in {A} (l : list A) x : last_opt l = Some x -> In x l.
Proof.
  destruct l as [|y l]; [discriminate|]. cbn [last_opt]. intros H. injection H as <-.
  assert (Hg : forall l (y z : A), In (last l y) (y :: l)); [|exact (Hg l y y)].
  clear. induction l as [|z l IH]; intros y z0; [left; reflexivity|]. destruct l as [|z' l]; [right; left; reflexivity|].
  change (last (z :: z' :: l) y) with (last (z' :: l) y). destruct (IH y y) as [H|H]; [left; exact H|right; right; exact H].
Qed.
Lemma keeps_dec {T} (F : BeaconState -> T) i a : (forall bs s, F (set_balances bs s) = F s) -> keeps F (decrease_balance E i a).
Proof. intros H. unfold decrease_balance. apply keeps_bind; [apply keeps_rd|]. intros b. apply keeps_md. intros s. apply H. Qed.
Lemma safe_withdrawals_electra L n d g p :
  safe (fun s => blk L n d g s /\ genesis_time s < 2 ^ 62 /\ next_withdrawal_validator_index s < lenN (validators s) /\ next_withdrawal_index s < 2 ^ 62 /\ lenN (pending_partial_withdrawals s) <= 2 ^ 32)
    (process_withdrawals E Electra p) (fun _ s => blk L n d g s /\ genesis_time s < 2 ^ 62).
Proof.
  intros s0 (K0 & Hg & Hv & Hi & Hpl). set (F := fun s => (genesis_time s, next_withdrawal_validator_index s, pending_partial_withdrawals s)).
  set (R := fun x => x = F s0).
  enough (Hsafe : safe (fun s => blk L n d g s /\ s = s0) (process_withdrawals E Electra p) (fun _ s => blk L n d g s /\ genesis_time s < 2 ^ 62)) by exact (Hsafe s0 (conj K0 eq_refl)).
  assert (HLv : lenN (validators s0) = L) by exact (k_L _ _ _ _ _ _ _ K0).
  assert (H40 : lenN (validators s0) <= 2 ^ 40) by (destruct (k_shape _ _ _ _ _ _ _ K0) as (_ & _ & _ & _ & _ & H); exact H).
  set (B := next_withdrawal_index s0 + lenN (pending_partial_withdrawals s0) + 2 ^ 40).
  assert (HB : B < 2 ^ 63) by (unfold B; change (2 ^ 63) with 9223372036854775808; pows; lia).
  unfold process_withdrawals.
  apply (safe_rdX _ _ _ (fun e => (forall w, In w (fst e) -> w_validator_index w < L /\ w_index w < B) /\ snd e <= lenN (pending_partial_withdrawals s0) /\ ep_withdrawals p = fst e)).
  { intros s [_ ->]. unfold withdrawals_checks, get_expected_withdrawals, get_expected_withdrawals_electra. cbv zeta.
    apply (np_bind _ _ (fun e => (forall w, In w (fst e) -> w_validator_index w < L /\ w_index w < B) /\ snd e <= lenN (pending_partial_withdrawals s0))).
    - rewrite (current_epoch_ok E Hctx). cbn [rbind]. pose proof (proj1 (k_al _ _ _ _ _ _ _ K0)) as Hal.
      destruct (k_pend _ _ _ _ _ _ _ K0 eq_refl) as [P1 _].
      eapply np_bind; [apply (np_partials s0 (epoch_of E s0) (next_withdrawal_validator_index s0) B Hal); [rewrite U64_val; change (2 ^ 63) with 9223372036854775808 in HB; lia| |unfold B; lia|exact Hv|intros w []]|].
      { intros w Hw. rewrite HLv. exact (P1 w Hw). }
      intros [wi acc] (H1 & H2 & H3). cbn [fst snd] in *.
      eapply np_bind; [apply (np_sweep Electra s0 B Hal H40); [rewrite U64_val; change (2 ^ 63) with 9223372036854775808 in HB; lia|exact Hv| |exact H3]|].
      { unfold sweep_bound, B. rewrite N2Nat.id. lia. }
      intros ws Hws. cbn [np fst snd]. rewrite HLv in Hws. split; [exact Hws|]. change (lenN (@nil Withdrawal)) with 0 in H2. lia.
    - intros e [He1 He2]. apply np_req. intros Hw. apply withdrawals_eqb_iff in Hw. cbn [np]. auto. }
  intros [ws c] (Hws & Hc & Hp). cbv zeta. cbn [fst snd] in *. change (fork_le Electra Electra) with true. cbv iota. unfold swhen at 1.
  apply (safe_seq _ _ _ (fun s => blk L n d g s /\ R (F s))).
  { eapply safe_pre; [|apply (safe_keep F R); [apply keeps_for; intros w; apply keeps_dec; reflexivity|]].
    - intros s [K ->]. split; [exact K|reflexivity].
    - rewrite Hp. apply (safe_pre (blk L (n + sumN (map (fun _ : Withdrawal => 0) ws)) d g)); [intros s; apply ble; rewrite (sum_c 0 ws); lia|].
      apply (safe_for (fun m => blk L m d g) (fun _ => 0)). intros w m Hw. rewrite N.add_0_r. ap safe_dec. apply Hws. exact Hw. }
  intros _. apply (safe_seq _ _ _ (fun s => blk L n d g s /\ genesis_time s < 2 ^ 62 /\ next_withdrawal_validator_index s < L)).
  { apply (safe_rdX _ _ _ (fun _ => True)).
    - intros s [_ HR]. unfold R, F in HR. injection HR as _ _ HR. rewrite HR. unfold rassert. rewrite (proj2 (N.leb_le _ _) Hc). exact I.
    - intros _ _. apply safe_md. intros s [K HR]. unfold R, F in HR. injection HR as R1 R2 _. split; [|gs; rewrite R1, R2, <- HLv; auto].
      pose proof (pending_skip s c L (k_pend _ _ _ _ _ _ _ K eq_refl)) as Hps. destruct K as [K1 K2 K3 K4 K5 K6 K7 K8 K9 K10 K11 K12 K13 K14 K15 K16]. constructor; auto. }
  intros _. apply (safe_seq _ _ _ (fun s => blk L n d g s /\ genesis_time s < 2 ^ 62 /\ next_withdrawal_validator_index s < L)).
  { destruct (last_opt ws) as [w|] eqn:Hlast; [|apply safe_ret; auto]. apply last_in in Hlast. destruct (Hws w Hlast) as [_ Hwi].
    apply (safe_liftX _ _ _ (fun _ => True)); [apply np_add; [rewrite U64_val; change (2 ^ 63) with 9223372036854775808 in *; lia|exact I]|]. intros i _.
    apply safe_md. intros s (K & H1 & H2). split; [|gs; auto]. destruct K as [K1 K2 K3 K4 K5 K6 K7 K8 K9 K10 K11 K12 K13 K14 K15 K16]. constructor; auto. }
  intros _. assert (Hset : forall i s, blk L n d g s /\ genesis_time s < 2 ^ 62 /\ next_withdrawal_validator_index s < L ->
     blk L n d g (set_next_withdrawal_validator_index i s) /\ genesis_time (set_next_withdrawal_validator_index i s) < 2 ^ 62).
  { intros i s (K & H1 & _). split; [|gs; exact H1]. destruct K as [K1 K2 K3 K4 K5 K6 K7 K8 K9 K10 K11 K12 K13 K14 K15 K16]. constructor; auto. }
  assert (HL0 : L <> 0) by lia.
  destruct (_ =? _).
  - destruct (last_opt ws) as [w|] eqn:Hlast; [|apply safe_ret; tauto]. apply last_in in Hlast. destruct (Hws w Hlast) as [_ Hwi].
    apply (safe_liftX _ _ _ (fun _ => True)); [apply np_add; [rewrite U64_val; change (2 ^ 63) with 9223372036854775808 in *; lia|exact I]|]. intros i1 _.
    apply (safe_rdX _ _ _ (fun _ => True)); [intros s (K & _); apply np_mod; [rewrite (k_L _ _ _ _ _ _ _ K); exact HL0|exact I]|]. intros i _. apply safe_md. apply Hset.
  - apply (safe_rdX _ _ _ (fun _ => True)).
    + intros s (K & _ & Hnv). destruct Hbs as (_ & _ & _ & _ & _ & Hsw). apply np_skip; [apply np_add; [rewrite U64_val; pows; lia|exact I]|]. intros x. apply np_mod; [rewrite (k_L _ _ _ _ _ _ _ K); exact HL0|exact I].
    + intros i _. apply safe_md. apply Hset.
Qed.

(** ** exits *)
Lemma safe_ve_electra L n d g op : safe (blk L (n + 1) d g) (process_voluntary_exit E Electra op) (fun _ => blk L n d g).
Proof.
  unfold process_voluntary_exit. apply (safe_rdX _ _ _ (fun i => i < L)); [|intros i Hi; ap safe_exit; exact Hi].
  intros s K. unfold voluntary_exit_checks. cbv zeta.
  apply (np_bind _ _ (fun v => nthN (validators s) (ve_validator_index (sve_message op)) = Some v)); [apply np_getN; auto|]. intros v Hv.
  assert (Hi : ve_validator_index (sve_message op) < L) by (rewrite <- (k_L _ _ _ _ _ _ _ K); exact (nthN_some _ _ _ Hv)).
  rewrite (current_epoch_ok E Hctx). cbn [rbind].
  apply np_req. intros Hact. do 2 (apply np_req; intros _).
  assert (Hel0 : v_activation_eligibility_epoch v < 2 ^ 56).
  { pose proof (epoch_small E Hctx s (k_slot _ _ _ _ _ _ _ K)) as He. unfold is_active_validator in Hact. apply andb_true_iff in Hact as [Hact _]. apply N.leb_le in Hact.
    assert (Hne : v_activation_epoch v <> FAR_FUTURE_EPOCH) by (unfold FAR_FUTURE_EPOCH; rewrite ?U64_val; pows; lia).
    pose proof (k_queued _ _ _ _ _ _ _ K v (nthN_In _ _ _ Hv) Hne). lia. }
  apply np_skip; [apply np_add; [destruct Hbs as (_ & _ & H & _); rewrite U64_val; pows; lia|exact I]|]. intros mt. apply np_req. intros _.
  apply np_skip.
  { destruct (k_pend _ _ _ _ _ _ _ K eq_refl) as [_ P2]. rewrite pending_balance_ok by (specialize (P2 (ve_validator_index (sve_message op))); pows; lia). cbn [rbind]. apply np_require. auto. }
  intros _. change (fork_le Deneb Electra) with true. cbv iota.
  apply np_skip; [ap np_domain0; auto|]. intros dom.
  apply np_skip; [apply np_map_err; ap np_verify; exact I|]. intros _. exact Hi.
Qed.

(** ** withdrawal requests *)
Lemma churn_epochs_div per budget bal : per <> 0 -> churn_epochs per budget bal <= bal / per + 1.
Proof.
  intros Hp. apply churn_epochs_spec; [exact Hp|]. pose proof (N.mul_succ_div_gt bal per Hp) as H. rewrite N.mul_succ_r in H. set (q := bal / per) in *. clearbody q. nia.
Qed.
Lemma pending_app s L i a w q b : pending_sound s L -> i < L -> pending_balance_of s i + a < 2 ^ 62 ->
  pending_sound (set_pending_partial_withdrawals (pending_partial_withdrawals s ++ [mkPPW i a w]) (set_earliest_exit_epoch q (set_exit_balance_to_consume b s))) L.
Proof.
  intros [P1 P2] Hi Ha. split; gs.
  - intros w0 Hw. apply in_app_iff in Hw as [Hw|[<-|[]]]; [exact (P1 w0 Hw)|exact Hi].
  - intros j. specialize (P2 j). unfold pending_balance_of in *. gs. rewrite filter_app, map_app, sumN_app. cbn [filter ppw_index].
    destruct (N.eqb_spec i j) as [->|Hne]; cbn [map ppw_amount]; [rewrite sumN_cons|]; change (sumN []) with 0; lia.
Qed.
Lemma safe_request L n d g r : safe (blk L (n + 1) d g) (process_execution_layer_withdrawal_request E r) (fun _ => blk L n d g).
Proof.
  intros s K. unfold process_execution_layer_withdrawal_request.
  destruct (k_pend _ _ _ _ _ _ _ K eq_refl) as [P1 P2]. pose proof (k_slot _ _ _ _ _ _ _ K) as Hs.
  assert (Hshard : SHARD_COMMITTEE_PERIOD E <= 2 ^ 32) by apply Hbs.
  destruct (request_action E Hctx Hel s r Hs Hshard (proj1 (k_al _ _ _ _ _ _ _ K)) P2) as (act & Hact & Hex & Hpa).
  rewrite (run_rd _ _ _ act) by exact Hact. destruct act as [|i|i a].
  - apply (ble L (n + 1) n d g s); [lia|exact K].
  - assert (Hi : i < L).
    { destruct (proj1 (Hex i) eq_refl) as (_ & _ & v & _ & Hv & _). rewrite <- (k_L _ _ _ _ _ _ _ K). exact (nthN_some _ _ _ Hv). }
    revert s K Hs P1 P2 Hact Hex Hpa. intros s K _ _ _ _ _ _. revert s K. change (safe (blk L (n + 1) d g) (initiate_exit E Electra i) (fun _ => blk L n d g)). ap safe_exit. exact Hi.
  - destruct (proj1 (Hpa i a) eq_refl) as (_ & _ & v & (_ & Hv & _) & _ & _ & Hbal & Ha).
    assert (Hi : i < L) by (rewrite <- (k_L _ _ _ _ _ _ _ K); exact (nthN_some _ _ _ Hv)).
    destruct (k_room _ _ _ _ _ _ _ K) as [(Hf & Hx & Hq0) Hq1]. specialize (Hq1 eq_refl). change (2 ^ 33) with 8589934592 in Hq1.
    assert (Hb : balance_at s i < 2 ^ 62).
    { unfold balance_at. destruct (nthN (balances s) i) as [b|] eqn:Hb; [|pows; lia]. pose proof (k_bal _ _ _ _ _ _ _ K b (nthN_In _ _ _ Hb)). lia. }
    assert (Ha62 : a < 2 ^ 62) by (clear - Ha Hb; lia). assert (Hap : pending_balance_of s i + a < 2 ^ 62) by (clear - Ha Hb Hbal; lia).
    rewrite (partial_run E Hctx Hel s i a Hs Hf Hx Ha62) by (clear - Hq1; lia).
    cbv zeta. set (q := exit_slot E s a). set (rest := exit_capacity E s q - a). set (w := q + _).
    assert (Hps := pending_app s L i a w q rest (conj P1 P2) Hi Hap).
    pose proof (exit_churn_bounds E Hctx Hel s) as Hp.
    assert (Hch : 1000000000 <= exit_churn E s).
    { unfold exit_churn. pose proof (balance_churn_ge E Hctx Hel s) as H1. rewrite (inc_val E Hm) in H1. destruct Hel as (_ & [H2 _] & _). rewrite (inc_val E Hm) in H2. lia. }
    assert (Hce : churn_epochs (exit_churn E s) (exit_queue_budget E s) a <= 8589934592).
    { etransitivity; [apply churn_epochs_div; lia|].
      assert (Hdv : a / exit_churn E s <= 4611686019) by (apply N.div_le_upper_bound; [lia|]; pows; nia). set (Q := a / _) in *. clearbody Q. lia. }
    assert (Hqs : exit_queue_start E s <= q <= exit_queue_start E s + 8589934592) by (unfold q, exit_slot; set (Q := churn_epochs _ _ _) in *; clearbody Q; lia).
    assert (Hrest : rest < 2 ^ 62).
    { unfold rest, exit_capacity. replace (q - exit_queue_start E s) with (churn_epochs (exit_churn E s) (exit_queue_budget E s) a) by (unfold q, exit_slot; set (Q := churn_epochs _ _ _) in *; clearbody Q; lia).
      pose proof (churn_epochs_rest (exit_churn E s) (exit_queue_budget E s) a ltac:(lia)) as H1. eapply N.le_lt_trans; [exact H1|].
      assert (exit_queue_budget E s < 2 ^ 62) by (unfold exit_queue_budget; destruct (_ <? _); pows; lia). pows. lia. }
    set (s' := set_pending_partial_withdrawals _ _) in *.
    assert (Hstart : exit_queue_start E s' = q).
    { change (exit_queue_start E s') with (N.max q (earliest_exit E s)). unfold exit_queue_start in Hqs. lia. }
    assert (Hr' : roomC E Electra n s').
    { split; [split; [exact Hf|split; [exact Hrest|]]|intros _]; change (validators s') with (validators s); rewrite Hstart; change (2 ^ 33) with 8589934592; lia. }
    clearbody rest w. apply (ble L (n + 1) n) in K; [|lia]. destruct K as [K1 K2 K3 K4 K5 K6 K7 K8 K9 K10 K11 K12 K13 K14 K15 K16]. constructor; auto.
Qed.

(** ** deposits *)
Lemma less_deposit L n d g s : blk L n (d + 1) g s -> blkE n d g s.
Proof.
  intros K. exists L. destruct K as [K1 K2 K3 K4 K5 K6 K7 K8 K9 K10 K11 K12 K13 K14 K15 K16]. constructor; auto; [lia|]. change (2 ^ 41) with 2199023255552 in *. lia.
Qed.
Lemma blk_pbd L n d g s l : blk L n d g s -> blk L n d g (set_pending_balance_deposits l s).
Proof. intros [K1 K2 K3 K4 K5 K6 K7 K8 K9 K10 K11 K12 K13 K14 K15 K16]. constructor; auto. Qed.
Lemma safe_excess L n d g i : i < L -> safe (blk L n d g) (queue_excess_active_balance E i) (fun _ => blk L n d g).
Proof.
  intros Hi s K. unfold queue_excess_active_balance.
  assert (Hib : i < lenN (balances s)) by (destruct (k_al _ _ _ _ _ _ _ K) as [-> _]; rewrite (k_L _ _ _ _ _ _ _ K); exact Hi).
  destruct (nthN_lt _ _ Hib) as [b Hb]. rewrite (run_rd _ _ _ b) by (apply idx_ok; exact Hb).
  destruct (N.ltb_spec (MIN_ACTIVATION_BALANCE E) b) as [Hlt|Hge]; [|exact K].
  rewrite (run_lift _ _ _ (b - MIN_ACTIVATION_BALANCE E)) by (unfold csub; destruct (N.leb_spec (MIN_ACTIVATION_BALANCE E) b); [reflexivity|lia]).
  rewrite !run_md. unfold md. apply blk_pbd. ap blk_balances; [exact K|apply lenN_updN| |reflexivity].
  intros x Hx. apply In_updN in Hx as [->|Hx]; [|exact (k_bal _ _ _ _ _ _ _ K x Hx)]. pose proof (k_bal _ _ _ _ _ _ _ K b (nthN_In _ _ _ Hb)). lia.
Qed.
Lemma safe_switch L n d g i : i < L -> safe (blk L n d g) (switch_to_compounding_validator E i) (fun _ => blk L n d g).
Proof.
  intros Hi. unfold switch_to_compounding_validator.
  apply (safe_rdX _ _ _ (fun _ => True)); [intros s K; apply np_idx; [rewrite (k_L _ _ _ _ _ _ _ K); exact Hi|auto]|]. intros v _.
  destruct (has_eth1_withdrawal_credential v); [|apply safe_ret; auto].
  eapply safe_seq; [ap safe_mod; [exact Hi|]; intros v0; split; [|reflexivity]; split; [|split; [|split]]; reflexivity|]. intros _. apply safe_excess. exact Hi.
Qed.
Lemma safe_add_electra L n d g pk wc a : safe (blk L n (d + 1) g) (add_validator_to_registry E Electra pk wc a) (fun _ => blkE n d g).
Proof.
  intros s K. cbn [add_validator_to_registry]. unfold md. set (v := get_validator_from_deposit_electra pk wc).
  assert (Hv : fresh v) by (split; reflexivity).
  assert (Hr : roomC E Electra n (set_validators (validators s ++ [v]) s)).
  { ap roomC_append; [exact Hv|reflexivity|reflexivity| |exact (k_room _ _ _ _ _ _ _ K)].
    pose proof (k_stake _ _ _ _ _ _ _ K). change (v_effective_balance v) with 0. pows. change (2 ^ 57) with 144115188075855872 in *. lia. }
  assert (Hll : lenN (validators s ++ [v]) <= 2 ^ 40) by (rewrite lenN_app, (k_L _ _ _ _ _ _ _ K); change (lenN [v]) with 1; pose proof (k_len _ _ _ _ _ _ _ K); lia).
  exists (L + 1). ap blk_append; [rewrite N.add_0_r; exact K|exact Hv|cbn; lia|reflexivity..| | | |reflexivity].
  - destruct (k_shape _ _ _ _ _ _ _ K) as (S1 & S2 & S3 & S4 & S5 & _). split; [exact S1|split; [exact S2|split; [exact S3|split; [exact S4|split; [exact S5|exact Hll]]]]].
  - eapply aligned_app; [exact (k_al _ _ _ _ _ _ _ K)|reflexivity..|]. intros _. split; [|split]; reflexivity.
  - exact Hr.
Qed.
Lemma np_deposit_sig pk wc a sg (Q : unit -> Prop) : Q tt -> np (is_valid_deposit_signature E pk wc a sg) Q.
Proof. intros H. unfold is_valid_deposit_signature. apply np_skip; [ap np_domain0; auto|]. intros dom. ap np_verify. exact H. Qed.
Lemma safe_apply_electra L n d g pk wc a sg : safe (blk L n (d + 1) g) (apply_deposit_electra E pk wc a sg) (fun _ => blkE n d g).
Proof.
  unfold apply_deposit_electra. apply (safe_rdX _ _ _ (fun o => match o with Some i => i < L | None => True end)).
  { intros s K. apply np_ok. destruct (position_pk pk (validators s) 0) as [i|] eqn:Hp; [|exact I]. apply holder_position in Hp. destruct Hp as [Hp _].
    rewrite <- (k_L _ _ _ _ _ _ _ K). unfold key_of in Hp. destruct (nthN (validators s) i) as [v|] eqn:Hv; [exact (nthN_some _ _ _ Hv)|discriminate]. }
  intros [i|] Hi.
  - eapply safe_seq; [apply safe_md; intros s K; apply blk_pbd; exact K|]. intros _.
    apply (safe_liftX _ _ _ (fun _ => True)); [apply np_deposit_sig; exact I|]. intros _ _.
    apply (safe_rdX _ _ _ (fun _ => True)); [intros s K; apply np_idx; [rewrite (k_L _ _ _ _ _ _ _ K); exact Hi|auto]|]. intros v _.
    apply safe_when; [|intros _ s K; eapply less_deposit; exact K]. intros _.
    eapply safe_imp; [exact (safe_switch L n (d + 1) g i Hi)|auto|]. intros u s K. eapply less_deposit. exact K.
  - apply (safe_liftX _ _ _ (fun _ => True)); [apply np_deposit_sig; exact I|]. intros _ _. apply safe_add_electra.
Qed.
Lemma safe_deposit_electra n d g dep : safe (blkE (n + 1) (d + 1) g) (process_deposit E Electra dep) (fun _ => blkE n d g).
Proof.
  apply safe_any. intros L. unfold process_deposit.
  apply (safe_rdX _ _ _ (fun _ => True)).
  { intros s K. apply np_skip; [apply np_htr; intros; exact I|]. intros leaf. apply np_require. auto. }
  intros _ _. apply (safe_rdX _ _ _ (fun i => i + n < 2 ^ 63)).
  { intros s K. pose proof (k_eth _ _ _ _ _ _ _ K) as He. change (2 ^ 63) with 9223372036854775808 in *. apply np_add; [rewrite U64_val; lia|lia]. }
  intros i Hi. apply (safe_seq _ _ _ (blk L n (d + 1) g)).
  { apply safe_md. intros s K. apply (ble L (n + 1) n) in K; [|lia]. destruct K as [K1 K2 K3 K4 K5 K6 K7 K8 K9 K10 K11 K12 K13 K14 K15 K16]. constructor; auto. }
  intros _. cbv zeta. apply safe_apply_electra.
Qed.
Lemma safe_receipt n d g r : safe (blkE n (d + 1) g) (process_deposit_receipt E r) (fun _ => blkE n d g).
Proof.
  apply safe_any. intros L. unfold process_deposit_receipt. apply (safe_seq _ _ _ (blk L n (d + 1) g)); [|intros _; apply safe_apply_electra].
  apply safe_md. intros s K. destruct (_ =? _); [|exact K]. destruct K as [K1 K2 K3 K4 K5 K6 K7 K8 K9 K10 K11 K12 K13 K14 K15 K16]. constructor; auto.
Qed.
Lemma safe_deposits_electra g : forall l n d, safe (blkE (n + lenN l) (d + lenN l) g) (sfor l (process_deposit E Electra)) (fun _ => blkE n d g).
Proof.
  induction l as [|x l IH]; intros n d; cbn [sfor].
  - apply safe_ret. intros s. change (lenN (@nil Deposit)) with 0. rewrite !N.add_0_r. auto.
  - rewrite lenN_cons. apply (safe_seq _ _ _ (blkE (n + lenN l) (d + lenN l) g)); [|intros _; apply IH].
    eapply safe_pre; [|apply safe_deposit_electra]. intros s K. cbv beta in *.
    replace (n + lenN l + 1) with (n + (lenN l + 1)) by lia. replace (d + lenN l + 1) with (d + (lenN l + 1)) by lia. exact K.
Qed.
Lemma safe_receipts n g : forall l d, safe (blkE n (d + lenN l) g) (sfor l (process_deposit_receipt E)) (fun _ => blkE n d g).
Proof.
  induction l as [|x l IH]; intros d; cbn [sfor].
  - apply safe_ret. intros s. change (lenN (@nil DepositReceipt)) with 0. rewrite !N.add_0_r. auto.
  - rewrite lenN_cons. apply (safe_seq _ _ _ (blkE n (d + lenN l) g)); [|intros _; apply IH].
    eapply safe_pre; [|apply safe_receipt]. intros s K. cbv beta in *. replace (d + lenN l + 1) with (d + (lenN l + 1)) by lia. exact K.
Qed.

(** ** consolidations, in builds without overflow checks *)
(** only consolidations touch their queue *)
Definition cqueue (s : BeaconState) := (slot s, earliest_consolidation_epoch s, consolidation_balance_to_consume s).
Lemma keeps_fold {X B T} (F : BeaconState -> T) (body : B -> X -> St BeaconState B) : (forall b x, keeps F (body b x)) -> forall l b, keeps F (sfold body l b).
Proof. intros H. induction l as [|x l IH]; intros b; cbn [sfold]; [apply keeps_ret|]. apply keeps_bind; [apply H|]. intros b'. apply IH. Qed.
Ltac kp := repeat first [apply keeps_rd | apply keeps_lift | apply keeps_ret | apply keeps_md; reflexivity | apply keeps_when | apply keeps_for; intros ? | apply keeps_fold; intros ? ?
  | apply keeps_bind; [|intros ?] | progress cbv zeta | match goal with |- keeps _ (match ?x with _ => _ end) => destruct x end].
Lemma cq_mod i h : keeps cqueue (mod_validator i h). Proof. unfold mod_validator. kp. Qed.
Lemma cq_exit i : keeps cqueue (initiate_validator_exit_electra E i).
Proof. unfold initiate_validator_exit_electra, compute_exit_epoch_and_update_churn, mod_validator. kp. Qed.
Lemma cq_inc i a : keeps cqueue (increase_balance E i a). Proof. unfold increase_balance. kp. Qed.
Lemma cq_dec i a : keeps cqueue (decrease_balance E i a). Proof. unfold decrease_balance. kp. Qed.
Lemma cq_slash i : keeps cqueue (slash_validator E Electra i None).
Proof.
  unfold slash_validator. cbn [initiate_exit]. kp; try apply cq_mod; try apply cq_exit; try apply cq_inc; try apply cq_dec.
Qed.
(** the operations before the consolidations *)
Definition operations_before (b : BeaconBlockBody) : St BeaconState unit :=
  rd (deposit_count_check E Electra b) ;;
  sfor (bb_proposer_slashings b) (process_proposer_slashing E Electra) ;;
  sfor (bb_attester_slashings b) (process_attester_slashing E Electra) ;;
  sfor (bb_attestations b) (process_attestation E Electra) ;;
  sfor (bb_deposits b) (process_deposit E Electra) ;;
  sfor (bb_voluntary_exits b) (process_voluntary_exit E Electra) ;;
  sfor (bb_bls_to_execution_changes b) (process_bls_to_execution_change E) ;;
  sfor (ep_withdrawal_requests (bb_execution_payload b)) (process_execution_layer_withdrawal_request E) ;;
  sfor (ep_deposit_receipts (bb_execution_payload b)) (process_deposit_receipt E).
Lemma sbind_assoc {A B C} (m : St BeaconState A) (k : A -> St BeaconState B) (h : B -> St BeaconState C) s :
  sbind (sbind m k) h s = sbind m (fun a => sbind (k a) h) s.
Proof. unfold sbind. destruct (m s) as [[a|e| |] s']; reflexivity. Qed.
Lemma sbind_ext {A B} (m : St BeaconState A) (k h : A -> St BeaconState B) : (forall a s, k a s = h a s) -> forall s, sbind m k s = sbind m h s.
Proof. intros H s. unfold sbind. destruct (m s) as [[a|e| |] s']; auto. Qed.
Lemma operations_split b s : process_operations E Electra b s = (operations_before b ;; sfor (bb_consolidations b) (process_consolidation E)) s.
Proof.
  unfold process_operations, operations_before. change (fork_le Capella Electra) with true. change (fork_le Electra Electra) with true. unfold swhen.
  do 8 (rewrite sbind_assoc; apply sbind_ext; intros [] ?). reflexivity.
Qed.
Lemma cq_ops b : keeps cqueue (operations_before b).
Proof.
  unfold operations_before, process_proposer_slashing, process_attester_slashing, process_attestation, process_attestation_altair, attestation_flag_step, set_participation,
    process_deposit, apply_deposit, process_deposit_receipt, apply_deposit_electra, add_validator_to_registry, switch_to_compounding_validator, queue_excess_active_balance,
    process_voluntary_exit, process_bls_to_execution_change, process_execution_layer_withdrawal_request, compute_exit_epoch_and_update_churn.
  cbn [initiate_exit]. kp; try apply cq_slash; try apply cq_mod; try apply cq_exit; try apply cq_inc; try (apply keeps_md; intros s; match goal with |- context [if ?c then _ else _] => destruct c end; reflexivity).
Qed.
(** [m] consolidations still fit the queue *)
Definition croom (m : N) (s : BeaconState) : Prop :=
  consolidation_start E s + m * 2 ^ 41 < 2 ^ 61 /\ consolidation_balance_to_consume s < 2 ^ 60.
Lemma safe_consolidation L n m op : chk E = false ->
  safe (fun s => blk L n 0 0 s /\ croom (m + 1) s) (process_consolidation E op) (fun _ s => blk L n 0 0 s /\ croom m s).
Proof.
  intros Hchk s [K [Hc1 Hc2]]. pose proof (k_slot _ _ _ _ _ _ _ K) as Hs. pose proof (k_room _ _ _ _ _ _ _ K) as [(Hfit & Hxb & Hxq) Hrm].
  assert (Hcl : 1 <= exit_churn E s <= 2 ^ 56) by (ap exit_churn_bounds).
  destruct (consolidation_checks E op s) as [[src tgt]|e| |] eqn:Hck.
  4:{ unfold process_consolidation, rd, sbind. cbv zeta. rewrite Hck. exact I. }
  2:{ unfold process_consolidation, rd, sbind. cbv zeta. rewrite Hck. exact I. }
  2:{ exfalso. assert (H : np (consolidation_checks E op s) (fun _ => True)); [|rewrite Hck in H; exact H]. unfold consolidation_checks. cbv zeta.
      apply np_skip; [apply np_require; auto|]. intros _. rewrite (consolidation_churn_ok E Hctx) by exact Hfit. cbn [rbind].
      apply np_skip; [apply np_require; auto|]. intros _. apply np_skip; [apply np_require; auto|]. intros _.
      apply np_skip; [apply np_getN; auto|]. intros v1. apply np_skip; [apply np_getN; auto|]. intros v2.
      apply np_skip; [ap np_epoch; auto|]. intros cur.
      do 8 (apply np_skip; [apply np_require; auto|]; intros _).
      apply np_skip; [ap np_domain0; auto|]. intros dm. apply np_skip; [ap np_signing; auto|]. intros r. apply np_skip; [apply np_require; auto|]. intros _. exact I. }
  pose proof (proj1 (consolidation_checks_iff E Hctx op s src tgt Hfit) Hck) as Hv.
  destruct Hv as (_ & _ & _ & Hsrc & _ & Hact & _ & Hx & _). set (c := scn_message op) in *.
  assert (Heff : v_effective_balance src < 2 ^ 41).
  { pose proof (k_eff _ _ _ _ _ _ _ K src (nthN_In _ _ _ Hsrc)). pose proof (cap_le E Hm Electra). pows. change (2 ^ 41) with 2199023255552. lia. }
  pose proof (consolidation_epoch_ok E Hctx Hel s (v_effective_balance src) Hs Hfit ltac:(pows; lia) ltac:(change (2 ^ 41) with 2199023255552 in *; pows; lia)
    ltac:(change (2 ^ 61) with 2305843009213693952 in *; change (2 ^ 63) with 9223372036854775808; lia)) as Hq0.
  unfold process_consolidation. cbv zeta. rewrite (run_rd _ _ _ (src, tgt)) by exact Hck. cbn [fst]. rewrite (run_bind _ _ _ _ _ Hq0).
  set (q := consolidation_slot E s (v_effective_balance src)). set (s1 := consolidation_scheduled E s (v_effective_balance src)).
  assert (Hq1 : consolidation_start E s <= q <= consolidation_start E s + v_effective_balance src).
  { unfold q, consolidation_slot. set (bud := if _ <? _ then _ else _). pose proof (churn_epochs_le (exit_churn E s) bud (v_effective_balance src) ltac:(lia)). clearbody bud. lia. }
  assert (Hq2 : consolidation_balance_to_consume s1 < 2 ^ 60).
  { unfold s1, consolidation_scheduled. fold q. gs. unfold consolidation_capacity, q, consolidation_slot. set (bud := if _ <? _ then _ else _).
    pose proof (churn_epochs_rest (exit_churn E s) bud (v_effective_balance src) ltac:(lia)) as Hr. replace (consolidation_start E s + churn_epochs (exit_churn E s) bud (v_effective_balance src) - consolidation_start E s)
      with (churn_epochs (exit_churn E s) bud (v_effective_balance src)) by lia.
    assert (bud < 2 ^ 60) by (unfold bud; destruct (_ <? _); pows; lia). pows. lia. }
  assert (Hqf : q <> FAR_FUTURE_EPOCH) by (unfold FAR_FUTURE_EPOCH; change (2 ^ 61) with 2305843009213693952 in *; change (2 ^ 41) with 2199023255552 in *; pows; lia).
  assert (Hv1 : nthN (validators s1) (cn_source_index c) = Some src) by exact Hsrc.
  assert (Hlt : cn_source_index c < lenN (validators s)) by (eapply nthN_some; eauto).
  rewrite (run_bind _ _ _ _ _ (mod_validator_ok s1 _ _ src Hv1)).
  assert (Hadd : exists w, add E (v_exit_epoch src) (MIN_VALIDATOR_WITHDRAWABILITY_DELAY E) = Ok w) by (unfold add, uadd; rewrite Hchk; destruct (_ <? _); eauto).
  destruct Hadd as [w Hw]. rewrite (run_lift _ _ _ w) by exact Hw.
  set (s2 := set_validators (updN (validators s1) (cn_source_index c) (set_v_exit_epoch q src)) s1).
  assert (Hv2 : nthN (validators s2) (cn_source_index c) = Some (set_v_exit_epoch q src)) by (apply nthN_updN_eq; exact Hlt).
  rewrite (run_bind _ _ _ _ _ (mod_validator_ok s2 _ _ _ Hv2)). unfold md.
  set (src' := set_v_withdrawable_epoch w (set_v_exit_epoch q src)).
  set (vs := updN (validators s2) (cn_source_index c) src').
  assert (Hvs : vs = updN (validators s) (cn_source_index c) src') by (unfold vs, s2; gs; apply updN_updN).
  assert (HK : blk L n 0 0 (set_validators vs s)).
  { rewrite Hvs. ap blk_vals.
    - exact K.
    - rewrite lenN_updN. exact (k_L _ _ _ _ _ _ _ K).
    - apply (core_upd _ _ src); [exact Hsrc|]. repeat split.
    - assert (Hd : same_duties E s (set_validators (updN (validators s) (cn_source_index c) src') s)).
      { apply same_duties_upd with (v := src); [exact Hsrc|reflexivity|]. unfold is_active_validator, src'. gs. rewrite Hx.
        assert (epoch_of E s < q) by (unfold consolidation_start, earliest_exit in Hq1; lia). pose proof (epoch_small E Hctx s Hs) as He.
        f_equal. rewrite !(proj2 (N.ltb_lt _ _)); [reflexivity| |exact H]. unfold FAR_FUTURE_EPOCH. pows. lia. }
      destruct (same_duties_churn E s _ Hd) as (_ & Hfit' & _). specialize (Hrm eq_refl).
      pose proof (staying_upd (validators s) (cn_source_index c) src src' Hsrc Hx Hqf) as Hst.
      split; [split; [auto|split; [exact Hxb|]]|intros _]; change (exit_queue_start E (set_validators (updN (validators s) (cn_source_index c) src') s)) with (exit_queue_start E s); gs; lia. }
  split.
  - rewrite Hvs in HK |- *. destruct HK as [K1 K2 K3 K4 K5 K6 K7 K8 K9 K10 K11 K12 K13 K14 K15 K16]. constructor; auto.
  - assert (Hgoal : croom m s1); [|exact Hgoal]. split; [|exact Hq2].
    assert (consolidation_start E s1 = q) as ->.
    { unfold consolidation_start. change (earliest_exit E s1) with (earliest_exit E s). change (earliest_consolidation_epoch s1) with q. unfold consolidation_start in Hq1. lia. }
    change (2 ^ 41) with 2199023255552 in *. lia.
Qed.
Lemma safe_consolidations n l m : (chk E = true -> l = []) ->
  safe (fun s => blkE n 0 0 s /\ croom (m + lenN l) s) (sfor l (process_consolidation E)) (fun _ s => blkE n 0 0 s).
Proof.
  revert m. induction l as [|x l IH]; intros m Hl; cbn [sfor]; [apply safe_ret; intros s [H _]; exact H|].
  assert (Hchk : chk E = false) by (destruct (chk E); [discriminate (Hl eq_refl)|reflexivity]).
  apply (safe_seq _ _ _ (fun s => blkE n 0 0 s /\ croom (m + lenN l) s)).
  - intros s [[L K] Hr]. rewrite lenN_cons in Hr. replace (m + (lenN l + 1)) with (m + lenN l + 1) in Hr by lia.
    pose proof (safe_consolidation L n (m + lenN l) x Hchk s (conj K Hr)) as H. destruct (process_consolidation E x s) as [[a| | |] s']; auto. destruct H as [H1 H2]. split; [exists L; exact H1|exact H2].
  - intros _. apply IH. rewrite Hchk. discriminate.
Qed.

(** ** operations and blocks *)
Definition op_costE (b : BeaconBlockBody) : N := op_cost b + lenN (ep_withdrawal_requests (bb_execution_payload b)).
Definition new_validators (b : BeaconBlockBody) : N := lenN (bb_deposits b) + lenN (ep_deposit_receipts (bb_execution_payload b)).
Lemma safe_operations_before n b :
  safe (blkE (n + op_costE b) (new_validators b) 0) (operations_before b) (fun _ => blkE n 0 0).
Proof.
  unfold operations_before. apply (safe_rdX _ _ _ (fun _ => True)).
  { intros s _. unfold deposit_count_check. cbv zeta. destruct (N.ltb_spec (eth1_deposit_index s) (N.min (e1_deposit_count (eth1_data s)) (deposit_receipts_start_index s))) as [Hlt|_]; [|exact I].
    apply np_skip; [apply np_sub; [lia|exact I]|]. intros x. destruct (negb _); [exact I|]. apply np_require. auto. }
  intros _ _. set (D := new_validators b). set (W := lenN (ep_withdrawal_requests (bb_execution_payload b))). set (R := lenN (ep_deposit_receipts (bb_execution_payload b))).
  set (n0 := n + W). set (n1 := n0 + lenN (bb_voluntary_exits b)). set (n2 := n1 + lenN (bb_deposits b)). set (n3 := n2 + sumN (map (fun _ => 16) (bb_attestations b))).
  set (n4 := n3 + slash_cost b).
  replace (n + op_costE b) with (n4 + sumN (map (fun _ => 3) (bb_proposer_slashings b))).
  2:{ unfold n4, n3, n2, n1, n0, op_costE, op_cost. rewrite !sum_c. fold W. lia. }
  apply (safe_seq _ _ _ (blkE n4 D 0)); [apply safe_units; intros L x m; ap safe_pslash|]. intros _.
  apply (safe_seq _ _ _ (blkE n3 D 0)); [apply (safe_units E Electra D 0 (fun op => 3 * lenN (ia_attesting_indices (as_1 op)))); intros L x m; ap safe_aslash|]. intros _.
  apply (safe_seq _ _ _ (blkE n2 D 0)); [apply safe_units; intros L x m; apply safe_att_electra|]. intros _.
  apply (safe_seq _ _ _ (blkE n1 R 0)).
  { eapply safe_pre; [|exact (safe_deposits_electra 0 (bb_deposits b) n1 R)]. intros s. unfold n2, D, new_validators. fold R. rewrite (N.add_comm (lenN (bb_deposits b)) R). auto. }
  intros _. apply (safe_seq _ _ _ (blkE n0 R 0)).
  { replace n1 with (n0 + sumN (map (fun _ => 1) (bb_voluntary_exits b))) by (unfold n1; rewrite sum_c; lia). apply safe_units. intros L x m. apply safe_ve_electra. }
  intros _. apply (safe_seq _ _ _ (blkE n0 R 0)).
  { apply (safe_pre (blkE (n0 + sumN (map (fun _ => 0) (bb_bls_to_execution_changes b))) R 0)); [intros s; rewrite sum_c, N.add_0_r; auto|].
    apply safe_units. intros L x m. rewrite N.add_0_r. ap safe_bls. }
  intros _. apply (safe_seq _ _ _ (blkE n R 0)).
  { replace n0 with (n + sumN (map (fun _ => 1) (ep_withdrawal_requests (bb_execution_payload b)))) by (unfold n0; rewrite sum_c; fold W; lia). apply safe_units. intros L x m. apply safe_request. }
  intros _. exact (safe_receipts n 0 (ep_deposit_receipts (bb_execution_payload b)) 0).
Qed.
Lemma safe_operations_electra n b : (chk E = true -> bb_consolidations b = []) ->
  safe (fun s => blkE (n + op_costE b) (new_validators b) 0 s /\ croom (lenN (bb_consolidations b)) s) (process_operations E Electra b) (fun _ => blkE n 0 0).
Proof.
  intros Hcons s Hs. rewrite operations_split. revert s Hs.
  change (safe (fun s => blkE (n + op_costE b) (new_validators b) 0 s /\ croom (lenN (bb_consolidations b)) s)
    (operations_before b ;; sfor (bb_consolidations b) (process_consolidation E)) (fun _ => blkE n 0 0)).
  apply (safe_seq _ _ _ (fun s => blkE n 0 0 s /\ croom (0 + lenN (bb_consolidations b)) s)); [|intros _; apply safe_consolidations; exact Hcons].
  apply (safe_keep cqueue (fun x => let '(sl, e, bal) := x in N.max e (sl / SLOTS_PER_EPOCH E + 1 + MAX_SEED_LOOKAHEAD E) + lenN (bb_consolidations b) * 2 ^ 41 < 2 ^ 61 /\ bal < 2 ^ 60)); [apply cq_ops|apply safe_operations_before].
Qed.

Lemma block_start_electra b s : block_bounds E Electra s -> queues_sound s -> block_fits b -> requests_fit b -> 0 < slot s ->
  blk (lenN (validators s)) (16 + op_costE b) (new_validators b) 0 s.
Proof.
  intros B (Q1 & Q2 & Q3 & _) (F1 & F2 & F3 & F4 & F5 & _) (G1 & G2 & _) Hpos.
  assert (Hcost : 16 + op_costE b <= 500000).
  { unfold op_costE, op_cost, slash_cost. replace (sumN (map (fun op => 3 * lenN (ia_attesting_indices (as_1 op))) (bb_attester_slashings b))) with (3 * sumN (map (fun op => lenN (ia_attesting_indices (as_1 op))) (bb_attester_slashings b))).
    - change (2 ^ 8) with 256 in *. change (2 ^ 17) with 131072 in F2. lia.
    - clear. induction (bb_attester_slashings b) as [|x l IH]; [reflexivity|]. cbn [map]. rewrite !sumN_cons, <- IH. lia. }
  assert (Hd : new_validators b <= 8448) by (unfold new_validators; change (2 ^ 8) with 256 in *; change (2 ^ 13) with 8192 in *; lia).
  set (n := 16 + op_costE b) in *. clearbody n. set (d := new_validators b) in *. clearbody d.
  destruct B as [B1 B2 B3 B4 B5 B6 B7 B8 B9 B10 B11 B12 B13 B14].
  assert (Hst : exit_queue_start E s < 2 ^ 60).
  { unfold exit_queue_start, earliest_exit. pose proof (epoch_small E Hctx s B3). assert (MAX_SEED_LOOKAHEAD E <= 4294967296) by (clear - Hctx; ctxs Hctx; lia). pows. lia. }
  assert (Hsy : staying (validators s) <= registered_stake s).
  { unfold staying, registered_stake. clear. induction (validators s) as [|v vs IH]; [reflexivity|]. cbn [filter map]. rewrite sumN_cons. destruct (_ =? _); [cbn [map]; rewrite sumN_cons|]; lia. }
  constructor; auto.
  - change (2 ^ 39) with 549755813888 in *. pows. lia.
  - change (2 ^ 41) with 2199023255552. change (2 ^ 57) with 144115188075855872. pows. lia.
  - intros x Hx. specialize (B7 x Hx). change (2 ^ 42) with 4398046511104. pows. lia.
  - intros x Hx. specialize (B8 x Hx). change (2 ^ 42) with 4398046511104. pows. lia.
  - split; [split; [|split]|intros _].
    + unfold active_balance_fits. pose proof (active_sum_le s (epoch_of E s)). pows. lia.
    + pows. lia.
    + pows. lia.
    + change (2 ^ 33) with 8589934592. pows. lia.
  - destruct B14 as (_ & H & _). change (2 ^ 63) with 9223372036854775808. pows. lia.
  - change (2 ^ 42) with 4398046511104. pows. lia.
Qed.

(** the steps of a block before its operations *)
Definition block_before (b : BeaconBlock) : St BeaconState unit :=
  process_block_header E Electra b ;;
  (process_withdrawals E Electra (bb_execution_payload (bk_body b)) ;; process_execution_payload E Electra (bk_body b)) ;;
  process_randao E (bk_body b) ;;
  process_eth1_data E (bk_body b).
Lemma block_split b s : process_block E Electra b s =
  (block_before b ;; process_operations E Electra (bk_body b) ;; process_sync_aggregate E (bb_sync_aggregate (bk_body b))) s.
Proof.
  unfold process_block, block_before. change (fork_le Altair Electra) with true. unfold swhen. cbv zeta.
  symmetry. do 3 (etransitivity; [apply sbind_assoc|]; apply sbind_ext; intros [] ?). reflexivity.
Qed.
Lemma cq_before b : keeps cqueue (block_before b).
Proof. unfold block_before, process_block_header, process_withdrawals, process_execution_payload, process_randao, process_eth1_data. kp; try apply cq_dec. Qed.

Theorem block_safe_electra b s : block_bounds E Electra s -> queues_sound s -> block_fits (bk_body b) -> requests_fit (bk_body b) ->
  (chk E = true -> bb_consolidations (bk_body b) = []) -> fst (process_block E Electra b s) <> Panic.
Proof.
  intros B HQ Hfit Hreq Hcons. set (body := bk_body b) in *.
  set (L := lenN (validators s)). set (n := 16 + op_costE body). set (d := new_validators body).
  set (F := fun s => (lenN (eth1_data_votes s), genesis_time s, next_withdrawal_validator_index s, next_withdrawal_index s, lenN (validators s), lenN (pending_partial_withdrawals s))).
  set (R := fun x => x = F s). set (m := lenN (bb_consolidations body)).
  set (RC := fun x : N * N * N => let '(sl, e, bal) := x in N.max e (sl / SLOTS_PER_EPOCH E + 1 + MAX_SEED_LOOKAHEAD E) + m * 2 ^ 41 < 2 ^ 61 /\ bal < 2 ^ 60).
  assert (Hbefore : safe (fun t => (0 < slot t -> blk L n d 0 t) /\ R (F t)) (block_before b) (fun _ => blkE n d 0)).
  { unfold block_before. fold body.
    eapply safe_bind; [apply (safe_keep F R); [|ap safe_header]|].
    { unfold process_block_header. apply keeps_bind; [apply keeps_rd|]. intros h. apply keeps_bind; [apply keeps_md; reflexivity|]. intros _. apply keeps_rd. }
    intros u. cbv beta.
    apply (safe_seq _ _ _ (fun t => blk L n d 0 t /\ lenN (eth1_data_votes t) < 2 ^ 60)).
    { apply (safe_seq _ _ _ (fun t => (blk L n d 0 t /\ genesis_time t < 2 ^ 62) /\ (fun e => lenN (fst (fst e)) < 2 ^ 60) (eth_fields t))).
      - eapply safe_pre; [|apply (safe_keep eth_fields (fun e => lenN (fst (fst e)) < 2 ^ 60)); [apply keeps_withdrawals|apply safe_withdrawals_electra]].
        intros t [K HR]. unfold R, F in HR. injection HR as R1 R2 R3 R4 R5 R6. cbn [eth_fields fst snd].
        destruct (bb_sweep _ _ _ B) as [S1 S2]; [right; right; reflexivity|]. destruct HQ as (_ & _ & _ & HQ & _). destruct (bb_eth1 _ _ _ B) as (V1 & _).
        pose proof (bb_genesis _ _ _ B) as G. rewrite R1, R2, R3, R4, R5, R6. auto 8.
      - intros _. apply (safe_keep eth_fields (fun e => lenN (fst (fst e)) < 2 ^ 60)); [apply keeps_payload|ap safe_payload]. }
    intros _. apply (safe_seq _ _ _ (fun t => blk L n d 0 t /\ (fun e => lenN (fst (fst e)) < 2 ^ 60) (eth_fields t))).
    { eapply safe_pre; [|apply (safe_keep eth_fields (fun e => lenN (fst (fst e)) < 2 ^ 60)); [apply keeps_randao|ap safe_randao]]. intros t H. exact H. }
    intros _ t [K HV]. cbn [eth_fields fst snd] in HV. rewrite (eth1_run E body t); [|pows; lia|destruct Hbs as (_ & _ & _ & H & _); rewrite U64_val; pows; lia].
    exists L. destruct K as [K1 K2 K3 K4 K5 K6 K7 K8 K9 K10 K11 K12 K13 K14 K15 K16]. unfold eth1_after. constructor; auto. }
  assert (Hsafe : safe (fun t => ((0 < slot t -> blk L n d 0 t) /\ R (F t)) /\ RC (cqueue t)) (process_block E Electra b) (fun _ _ => True)).
  { intros t Ht. rewrite block_split. fold body. revert t Ht.
    change (safe (fun t => ((0 < slot t -> blk L n d 0 t) /\ R (F t)) /\ RC (cqueue t)) (block_before b ;; process_operations E Electra body ;; process_sync_aggregate E (bb_sync_aggregate body)) (fun _ _ => True)).
    apply (safe_seq _ _ _ (fun t => blkE n d 0 t /\ RC (cqueue t))); [exact (safe_keep cqueue RC _ _ _ (cq_before b) Hbefore)|]. intros _.
    apply (safe_seq _ _ _ (blkE 16 0 0)); [exact (safe_operations_electra 16 body Hcons)|]. intros _.
    apply safe_any. intros L'. apply (safe_imp (blk L' (0 + 16) 0 0) _ _ (fun _ => blk L' 0 0 0)); [ap safe_sync; discriminate|intros t K; exact K|auto]. }
  assert (HC : RC (cqueue s)).
  { unfold RC, cqueue. destruct HQ as (_ & _ & _ & _ & Q5 & Q6). destruct Hreq as (_ & _ & Hreq). fold m in Hreq. split; [|exact Q6].
    pose proof (epoch_small E Hctx s (bb_slot _ _ _ B)) as He. unfold epoch_of in He. set (e := slot s / SLOTS_PER_EPOCH E) in *. clearbody e m.
    assert (MAX_SEED_LOOKAHEAD E <= 4294967296) by (clear - Hctx; ctxs Hctx; lia). change (2 ^ 8) with 256 in Hreq. change (2 ^ 41) with 2199023255552. change (2 ^ 61) with 2305843009213693952. pows. lia. }
  assert (Hpre : (0 < slot s -> blk L n d 0 s) /\ R (F s)) by (split; [intros Hpos; apply block_start_electra; assumption|reflexivity]).
  specialize (Hsafe s (conj Hpre HC)). destruct (process_block E Electra b s) as [[x| | |] s']; cbn; try discriminate. destruct Hsafe.
Qed.
End C.
