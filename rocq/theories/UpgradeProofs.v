(** * Proofs about the fork upgrades *)
From Verif Require Import Base BaseLemmas Types Ctx Env Helpers HelpersAltair HelpersElectra Block Epoch Transition Upgrade StLemmas Frame
  SpecCommon SpecShuffle SpecHelpers SpecElectra SpecOps SpecBlock SpecAtt SpecEpoch SpecUpgrade
  HelperProofs HelperProofs2 OpsProofs ElectraProofs AttProofs EpochProofs RegistryProofs PeriodicProofs.
From Coq Require Import Sorted Permutation.

Lemma filter_filter_and {A} (p q : A -> bool) l : filter q (filter p l) = filter (fun x => p x && q x) l.
Proof. induction l as [|x l IH]; [reflexivity|]. cbn [filter]. destruct (p x); cbn [filter andb]; rewrite IH; reflexivity. Qed.

Section U.
Variable E : Env.
Hypothesis Hctx : ctx_sane E.

(** ** translation of the pending attestations *)
Lemma translate_one_ok flags : forall part i p, nthN part i = Some p -> translate_one flags i part = Ok (updN part i (with_flags flags p)).
Proof.
  unfold translate_one. induction flags as [|k flags IH]; intros part i p Hp; cbn [rfold with_flags fold_left].
  - rewrite updN_id; [reflexivity|exact Hp].
  - rewrite (proj2 (idx_ok part i p) Hp). cbn [rbind]. rewrite (IH _ i (add_flag p k)) by (apply nthN_updN_eq; eapply nthN_some; exact Hp).
    rewrite updN_updN, add_flag_set. reflexivity.
Qed.
Lemma translate_indices flags : forall is part, (forall i, In i is -> i < lenN part) ->
  exists part', rfold (fun part i => translate_one flags i part) is part = Ok part' /\ lenN part' = lenN part
    /\ forall i p, nthN part i = Some p -> exists p', nthN part' i = Some p' /\ forall k, N.testbit p' k = N.testbit p k || (memN i is && memN k flags).
Proof.
  induction is as [|x is IH]; intros part Hr; cbn [rfold].
  - exists part. split; [reflexivity|]. split; [reflexivity|]. intros i p Hp. exists p. split; [exact Hp|]. intros k. cbn. rewrite orb_false_r. reflexivity.
  - destruct (nthN_lt part x (Hr x (or_introl eq_refl))) as [px Hpx]. rewrite (translate_one_ok flags part x px Hpx). cbn [rbind].
    destruct (IH (updN part x (with_flags flags px))) as (part' & H1 & H2 & H3); [intros i Hi; rewrite lenN_updN; apply Hr; right; exact Hi|].
    exists part'. split; [exact H1|]. split; [rewrite H2, lenN_updN; reflexivity|]. intros i p Hp. cbn [memN existsb]. fold (memN i is).
    destruct (N.eqb_spec i x) as [->|Hne].
    + assert (px = p) by congruence. subst px. destruct (H3 x (with_flags flags p)) as (p' & Hp' & Hk); [apply nthN_updN_eq; eapply nthN_some; exact Hp|].
      exists p'. split; [exact Hp'|]. intros k. rewrite Hk, with_flags_bit. cbn [orb andb]. destruct (N.testbit p k), (memN k flags), (memN x is); reflexivity.
    + destruct (H3 i p) as (p' & Hp' & Hk); [rewrite nthN_updN_ne by congruence; exact Hp|]. exists p'. split; [exact Hp'|]. exact Hk.
Qed.

Section Altair.
Hypothesis Hwf : hash_wf (hash E).
Hypothesis Hatt : ctx_sane_att E.

Lemma committee_in_range s sl c com k i : is_committee E s sl c com -> nthN com k = Some i -> i < lenN (validators s).
Proof.
  intros (seed & _ & Hl & Hc) Hk. rewrite Hc in Hk by (eapply nthN_some; exact Hk). apply nthN_In in Hk. eapply active_in_range. exact Hk.
Qed.
Lemma translate_attestation_ok s a part : state_shape E s -> slot_small s -> pending_consistent E s a -> lenN part = lenN (validators s) ->
  exists part', translate_attestation E s part a = Ok part' /\ lenN part' = lenN part
    /\ forall i p, nthN part i = Some p -> exists p', nthN part' i = Some p'
         /\ forall k, N.testbit p' k = true <-> N.testbit p k = true \/ (took_part E s a i /\ earns_after E Altair s (pa_data a) (pa_inclusion_delay a) k).
Proof.
  intros Hsh Hs (Ht & Hsrc & Hi & com & Hcom & Hlen) Hp. set (d := pa_data a) in *. unfold translate_attestation. fold d.
  destruct (flags_after E Hctx Hatt Altair Deneb s d (pa_inclusion_delay a) Hsh Hs Ht) as [_ Hfl]. destruct (Hfl Hsrc) as (flags & -> & _ & Hk). cbn [rbind].
  destruct (timely_small E Hatt Deneb d s Hs Ht) as [_ Hsl].
  assert (Hg : get_beacon_committee E s (ad_slot d) (ad_index d) = Ok com).
  { apply (committee_spec E Hctx Hwf); [exact Hsh|clear - Hsl; pows; lia|destruct Ht as (_ & <- & _); exact Hi|exact Hcom]. }
  rewrite (get_attesting_indices_ok E s d (pa_aggregation_bits a) com Hg), Hlen, N.eqb_refl. cbn [rbind].
  set (is := dedupN (select_bits (pa_aggregation_bits a) com)).
  assert (His : forall i, In i is <-> took_part E s a i).
  { intros i. unfold is. rewrite In_dedupN, In_select_bits. unfold took_part. fold d. split.
    - intros (k & H1 & H2). exists com, k. auto.
    - intros (com' & k & H1 & H2 & H3). rewrite (is_committee_fun E _ _ _ _ _ H1 Hcom) in H3. eauto. }
  destruct (translate_indices flags is part) as (part' & H1 & H2 & H3).
  { intros i Hx. apply His in Hx as (com' & k & Hc' & _ & Hn). rewrite Hp. eapply committee_in_range; eassumption. }
  exists part'. split; [exact H1|]. split; [exact H2|]. intros i p Hn. destruct (H3 i p Hn) as (p' & Hn' & Hb). exists p'. split; [exact Hn'|].
  intros k. rewrite Hb, orb_true_iff, andb_true_iff, !memN_true, His, Hk. reflexivity.
Qed.
Lemma translate_all s l : state_shape E s -> slot_small s -> (forall a, In a l -> pending_consistent E s a) -> forall part, lenN part = lenN (validators s) ->
  exists part', rfold (translate_attestation E s) l part = Ok part' /\ lenN part' = lenN part
    /\ forall i p, nthN part i = Some p -> exists p', nthN part' i = Some p'
         /\ forall k, N.testbit p' k = true <-> N.testbit p k = true
              \/ exists a, In a l /\ took_part E s a i /\ earns_after E Altair s (pa_data a) (pa_inclusion_delay a) k.
Proof.
  intros Hsh Hs. induction l as [|a l IH]; intros Hok part Hp; cbn [rfold].
  - exists part. split; [reflexivity|]. split; [reflexivity|]. intros i p Hn. exists p. split; [exact Hn|]. intros k. split; [auto|]. intros [H|(a & [] & _)]. exact H.
  - destruct (translate_attestation_ok s a part Hsh Hs (Hok a (or_introl eq_refl)) Hp) as (p1 & -> & L1 & B1). cbn [rbind].
    destruct (IH (fun x Hx => Hok x (or_intror Hx)) p1 ltac:(congruence)) as (p2 & -> & L2 & B2). exists p2. split; [reflexivity|]. split; [congruence|].
    intros i p Hn. destruct (B1 i p Hn) as (q & Hq & K1). destruct (B2 i q Hq) as (r & Hr & K2). exists r. split; [exact Hr|]. intros k. rewrite K2, K1. split.
    + intros [[H|[H H']]|(x & Hx & H)]; [auto|right; exists a; split; [left; reflexivity|auto]|right; exists x; split; [right; exact Hx|exact H]].
    + intros [H|(x & [<-|Hx] & H)]; [auto|auto|right; eauto].
Qed.
Lemma upgrade_altair_run s c : state_shape E s -> slot_small s -> (forall a, In a (previous_epoch_attestations s) -> pending_consistent E s a) ->
  get_next_sync_committee E s = Ok c ->
  exists s', upgrade_to_altair E s = Ok s' /\ keeps_history s s' /\ keeps_registry s s' /\ fork_recorded E s s' (ALTAIR_FORK_VERSION E)
    /\ current_epoch_participation s' = repeatN 0 (lenN (validators s)) /\ inactivity_scores s' = repeatN 0 (lenN (validators s))
    /\ current_sync_committee s' = c /\ next_sync_committee s' = c
    /\ lenN (previous_epoch_participation s') = lenN (validators s)
    /\ forall i p, nthN (previous_epoch_participation s') i = Some p -> forall k, N.testbit p k = true <->
         exists a, In a (previous_epoch_attestations s) /\ took_part E s a i /\ earns_after E Altair s (pa_data a) (pa_inclusion_delay a) k.
Proof.
  intros Hsh Hs Hok Hc. unfold upgrade_to_altair. rewrite (current_epoch_ok E Hctx). cbn [rbind]. set (b := altair_base E (epoch_of E s) s).
  unfold translate_participation.
  destruct (translate_all b (previous_epoch_attestations s)) with (part := previous_epoch_participation b) as (part & H1 & H2 & H3).
  - exact Hsh.
  - exact Hs.
  - exact Hok.
  - unfold b, altair_base. cbn [previous_epoch_participation validators]. apply lenN_repeatN.
  - rewrite H1. cbn [rbind].
    assert (Hc' : get_next_sync_committee E (set_previous_epoch_participation part b) = Ok c) by (rewrite <- Hc; apply next_committee_ext; reflexivity).
    rewrite Hc'. cbn [rbind]. eexists. split; [reflexivity|]. split; [repeat split|]. split; [split; reflexivity|]. split; [repeat split|].
    split; [reflexivity|]. split; [reflexivity|]. split; [reflexivity|]. split; [reflexivity|]. gs.
    assert (Hl : lenN (previous_epoch_participation b) = lenN (validators s)) by (unfold b, altair_base; cbn [previous_epoch_participation]; apply lenN_repeatN).
    split; [congruence|]. intros i p Hp k. pose proof (nthN_some _ _ _ Hp) as Hi. rewrite H2 in Hi. destruct (nthN_lt _ _ Hi) as [q Hq].
    destruct (H3 i q Hq) as (p' & Hp' & Hk). assert (p' = p) by congruence. subst p'. rewrite Hk.
    assert (q = 0).
    { unfold b, altair_base in Hq. cbn [previous_epoch_participation] in Hq. apply nthN_In in Hq. unfold repeatN in Hq. apply repeat_spec in Hq. exact Hq. }
    subst q. rewrite N.bits_0. split; [intros [H|H]; [discriminate|exact H]|auto].
Qed.
End Altair.

(** ** the queues filled by the upgrade to electra *)
Definition reset_record (v : Validator) : Validator := set_v_activation_eligibility_epoch FAR_FUTURE_EPOCH (set_v_effective_balance 0 v).
Lemma queue_entire_run s i v b : nthN (validators s) i = Some v -> nthN (balances s) i = Some b ->
  queue_entire_balance_and_reset_validator i s = (Ok tt, set_pending_balance_deposits (pending_balance_deposits s ++ [mkPBD i b])
    (set_validators (updN (validators s) i (reset_record v)) (set_balances (updN (balances s) i 0) s))).
Proof.
  intros Hv Hb. unfold queue_entire_balance_and_reset_validator. rewrite (run_rd _ _ _ b) by (apply idx_ok; exact Hb). rewrite run_md.
  rewrite (run_bind _ _ _ _ _ (mod_validator_ok (set_balances (updN (balances s) i 0) s) i _ v Hv)). reflexivity.
Qed.
Lemma queue_entire_loop : forall (l : list (N * N)) s, NoDup (map snd l) -> lenN (balances s) = lenN (validators s) -> (forall p, In p l -> snd p < lenN (validators s)) ->
  exists vs bs, sfor l (fun p => queue_entire_balance_and_reset_validator (snd p)) s
      = (Ok tt, set_pending_balance_deposits (pending_balance_deposits s ++ map (fun i => mkPBD i (balance_at s i)) (map snd l)) (set_validators vs (set_balances bs s)))
    /\ lenN vs = lenN (validators s) /\ lenN bs = lenN (validators s)
    /\ (forall i v, nthN (validators s) i = Some v -> nthN vs i = Some (if memN i (map snd l) then reset_record v else v))
    /\ (forall i b, nthN (balances s) i = Some b -> nthN bs i = Some (if memN i (map snd l) then 0 else b)).
Proof.
  induction l as [|[x i] l IH]; intros s Hnd Hlen Hr.
  - exists (validators s), (balances s). rewrite sfor_nil. cbn [map]. rewrite app_nil_r, set_balances_id, set_validators_id, set_pending_balance_deposits_id.
    split; [reflexivity|]. split; [reflexivity|]. split; [exact Hlen|]. split; intros; assumption.
  - cbn [map snd] in *. inversion Hnd as [|? ? Hni Hnd']; subst. rewrite sfor_cons. cbn [snd].
    assert (Hi : i < lenN (validators s)) by (apply (Hr (x, i)); left; reflexivity).
    destruct (nthN_lt _ _ Hi) as [v Hv]. rewrite <- Hlen in Hi. destruct (nthN_lt _ _ Hi) as [b Hb]. rewrite Hlen in Hi.
    rewrite (run_bind _ _ _ _ _ (queue_entire_run s i v b Hv Hb)).
    set (s1 := set_pending_balance_deposits _ _).
    destruct (IH s1 Hnd') as (vs & bs & H1 & H2 & H3 & H4 & H5).
    + unfold s1. gs. rewrite !lenN_updN. exact Hlen.
    + intros p Hp. unfold s1. gs. rewrite lenN_updN. apply Hr. right. exact Hp.
    + exists vs, bs. split.
      * rewrite H1. f_equal. rewrite (map_ext_in (fun j => mkPBD j (balance_at s1 j)) (fun j => mkPBD j (balance_at s j))).
        2:{ intros j Hj. f_equal. unfold balance_at, s1. gs. rewrite nthN_updN_ne by (intros ->; contradiction). reflexivity. }
        assert (Hba : balance_at s i = b) by (unfold balance_at; rewrite Hb; reflexivity). unfold s1. gs. rewrite Hba, <- app_assoc. reflexivity.
      * unfold s1 in H2, H3. gsh H2. gsh H3. rewrite lenN_updN in H2, H3. split; [exact H2|]. split; [exact H3|]. cbn [memN existsb]. split.
        -- intros j w Hw. fold (memN j (map snd l)). destruct (N.eqb_spec j i) as [->|Hne].
           ++ assert (w = v) by congruence. subst w. rewrite (H4 i (reset_record v)) by (unfold s1; gs; apply nthN_updN_eq; exact Hi).
              cbn [orb]. rewrite (proj2 (memN_false i (map snd l)) Hni). reflexivity.
           ++ cbn [orb]. apply H4. unfold s1. gs. rewrite nthN_updN_ne by congruence. exact Hw.
        -- intros j w Hw. fold (memN j (map snd l)). destruct (N.eqb_spec j i) as [->|Hne].
           ++ assert (w = b) by congruence. subst w. rewrite (H5 i 0) by (unfold s1; gs; apply nthN_updN_eq; rewrite Hlen; exact Hi).
              cbn [orb]. destruct (memN i (map snd l)); reflexivity.
           ++ cbn [orb]. apply H5. unfold s1. gs. rewrite nthN_updN_ne by congruence. exact Hw.
Qed.
Lemma queue_excess_run s i b : nthN (balances s) i = Some b ->
  queue_excess_active_balance E i s = (Ok tt, if MIN_ACTIVATION_BALANCE E <? b
     then set_pending_balance_deposits (pending_balance_deposits s ++ [mkPBD i (b - MIN_ACTIVATION_BALANCE E)]) (set_balances (updN (balances s) i (MIN_ACTIVATION_BALANCE E)) s)
     else s).
Proof.
  intros Hb. unfold queue_excess_active_balance. rewrite (run_rd _ _ _ b) by (apply idx_ok; exact Hb).
  destruct (N.ltb_spec (MIN_ACTIVATION_BALANCE E) b); [|reflexivity].
  rewrite (run_lift _ _ _ (b - MIN_ACTIVATION_BALANCE E)); [reflexivity|]. unfold csub. destruct (N.leb_spec (MIN_ACTIVATION_BALANCE E) b); [reflexivity|lia].
Qed.
Lemma queue_excess_loop : forall l s, NoDup l -> (forall i, In i l -> i < lenN (balances s)) ->
  exists bs, sfor l (queue_excess_active_balance E) s
      = (Ok tt, set_pending_balance_deposits (pending_balance_deposits s
            ++ map (fun i => mkPBD i (balance_at s i - MIN_ACTIVATION_BALANCE E)) (filter (fun i => MIN_ACTIVATION_BALANCE E <? balance_at s i) l)) (set_balances bs s))
    /\ lenN bs = lenN (balances s)
    /\ (forall i b, nthN (balances s) i = Some b -> nthN bs i = Some (if memN i l then N.min b (MIN_ACTIVATION_BALANCE E) else b)).
Proof.
  induction l as [|i l IH]; intros s Hnd Hr.
  - exists (balances s). rewrite sfor_nil. cbn [map filter]. rewrite app_nil_r, set_balances_id, set_pending_balance_deposits_id. split; [reflexivity|]. split; [reflexivity|]. intros; assumption.
  - inversion Hnd as [|? ? Hni Hnd']; subst. rewrite sfor_cons. destruct (nthN_lt _ _ (Hr i (or_introl eq_refl))) as [b Hb].
    rewrite (run_bind _ _ _ _ _ (queue_excess_run s i b Hb)). cbn [filter]. assert (Hba : balance_at s i = b) by (unfold balance_at; rewrite Hb; reflexivity). rewrite Hba.
    destruct (N.ltb_spec (MIN_ACTIVATION_BALANCE E) b) as [Hgt|Hle].
    + set (s1 := set_pending_balance_deposits _ _). destruct (IH s1 Hnd') as (bs & H1 & H2 & H3).
      * intros j Hj. unfold s1. gs. rewrite lenN_updN. apply Hr. right. exact Hj.
      * assert (Hsame : forall j, In j l -> balance_at s1 j = balance_at s j).
        { intros j Hj. unfold balance_at, s1. gs. rewrite nthN_updN_ne by (intros ->; contradiction). reflexivity. }
        exists bs. split.
        -- rewrite H1. f_equal.
           rewrite (filter_ext_in _ (fun j => MIN_ACTIVATION_BALANCE E <? balance_at s j)) by (intros j Hj; rewrite Hsame by exact Hj; reflexivity).
           rewrite (map_ext_in _ (fun j => mkPBD j (balance_at s j - MIN_ACTIVATION_BALANCE E))).
           2:{ intros j Hj. apply filter_In in Hj as [Hj _]. rewrite Hsame by exact Hj. reflexivity. }
           unfold s1. gs. cbn [map]. rewrite Hba, <- app_assoc. reflexivity.
        -- split; [rewrite H2; unfold s1; gs; apply lenN_updN|]. intros j w Hw. cbn [memN existsb]. fold (memN j l). destruct (N.eqb_spec j i) as [->|Hne].
           ++ assert (w = b) by congruence. subst w. rewrite (H3 i (MIN_ACTIVATION_BALANCE E)) by (unfold s1; gs; apply nthN_updN_eq; apply Hr; left; reflexivity).
              rewrite (proj2 (memN_false i l) Hni). cbn [orb]. f_equal. lia.
           ++ cbn [orb]. apply H3. unfold s1. gs. rewrite nthN_updN_ne by congruence. exact Hw.
    + destruct (IH s Hnd') as (bs & H1 & H2 & H3); [intros j Hj; apply Hr; right; exact Hj|]. exists bs. split; [exact H1|]. split; [exact H2|].
      intros j w Hw. rewrite (H3 j w Hw). cbn [memN existsb]. fold (memN j l). destruct (N.eqb_spec j i) as [->|Hne]; [|reflexivity].
      assert (w = b) by congruence. subst w. cbn [orb]. destruct (memN i l); f_equal; lia.
Qed.

(** ** orders *)
Lemma In_pre_activation : forall vs k x i, In (x, i) (pre_activation_from vs k) <->
  k <= i /\ exists v, nthN vs (i - k) = Some v /\ v_activation_epoch v = FAR_FUTURE_EPOCH /\ x = v_activation_eligibility_epoch v.
Proof.
  induction vs as [|v vs IH]; intros k x i; cbn [pre_activation_from].
  - split; [intros []|]. intros (_ & v & Hv & _). apply nthN_some in Hv. change (lenN (@nil Validator)) with 0 in Hv. lia.
  - rewrite in_app_iff, IH. split.
    + intros [H|(H1 & w & H2 & H3 & H4)].
      * destruct (N.eqb_spec (v_activation_epoch v) FAR_FUTURE_EPOCH) as [Hf|]; [|destruct H]. destruct H as [[= <- <-]|[]].
        split; [lia|]. exists v. rewrite N.sub_diag, nthN_0. auto.
      * split; [lia|]. exists w. replace (i - k) with ((i - (k + 1)) + 1) by lia. rewrite nthN_succ. auto.
    + intros (H1 & w & H2 & H3 & H4). destruct (N.eq_dec i k) as [->|Hne].
      * left. rewrite N.sub_diag, nthN_0 in H2. injection H2 as <-. rewrite H3, N.eqb_refl, H4. left; reflexivity.
      * right. split; [lia|]. exists w. replace (i - k) with ((i - (k + 1)) + 1) in H2 by lia. rewrite nthN_succ in H2. auto.
Qed.
Lemma NoDup_pre_activation : forall vs k, NoDup (map snd (pre_activation_from vs k)).
Proof.
  induction vs as [|v vs IH]; intros k; cbn [pre_activation_from]; [constructor|]. rewrite map_app.
  destruct (v_activation_epoch v =? FAR_FUTURE_EPOCH); cbn [map snd app]; [|apply IH]. constructor; [|apply IH].
  intros Hin. apply in_map_iff in Hin as ([x i] & Hs & Hin). cbn [snd] in Hs. subst i. apply In_pre_activation in Hin as [Hin _]. lia.
Qed.
Lemma preactivation_order s : is_preactivation_order s (map snd (key_sort (pre_activation_from (validators s) 0))).
Proof.
  set (l := key_sort (pre_activation_from (validators s) 0)).
  assert (Hin : forall x i, In (x, i) l <-> exists v, nthN (validators s) i = Some v /\ v_activation_epoch v = FAR_FUTURE_EPOCH /\ x = v_activation_eligibility_epoch v).
  { intros x i. transitivity (In (x, i) (pre_activation_from (validators s) 0)).
    - split; intros H; (eapply Permutation_in; [|exact H]); [symmetry|]; apply key_sort_perm.
    - rewrite In_pre_activation, N.sub_0_r. split; [intros [_ H]; exact H|]. intros H. split; [lia|exact H]. }
  split.
  - assert (Hk : forall p, In p l -> fst p = eligibility_of s (snd p)).
    { intros [x i] Hp. apply Hin in Hp as (v & Hv & _ & ->). unfold eligibility_of. cbn [fst snd]. rewrite Hv. reflexivity. }
    assert (Hs : StronglySorted (fun a b => key_leb a b = true) l) by apply key_sort_sorted.
    assert (Hnd : NoDup (map snd l)) by (eapply Permutation_NoDup; [|apply (NoDup_pre_activation (validators s) 0)]; apply Permutation_map, key_sort_perm).
    clearbody l. clear Hin. induction l as [|p l IH]; [constructor|]. cbn [map] in *. inversion Hs as [|? ? H1 H2]; subst. inversion Hnd as [|? ? H3 H4]; subst.
    constructor; [apply IH; auto; intros; apply Hk; right; assumption|]. apply Forall_forall. intros j Hj. pose proof Hj as Hj'. apply in_map_iff in Hj as (r & <- & Hr).
    rewrite Forall_forall in H2. specialize (H2 r Hr). unfold queued_before. rewrite <- (Hk p (or_introl eq_refl)), <- (Hk r (or_intror Hr)).
    assert (snd p <> snd r) by (intros He; apply H3; rewrite He; exact Hj'). unfold key_leb in H2. lia.
  - intros i. unfold not_activated. rewrite in_map_iff. split.
    + intros ([x j] & <- & H). apply Hin in H as (v & Hv & Hf & _). cbn [snd]. rewrite Hv, Hf. apply N.eqb_refl.
    + destruct (nthN (validators s) i) as [v|] eqn:Hv; [|discriminate]. intros Hf. apply N.eqb_eq in Hf. exists (v_activation_eligibility_epoch v, i). split; [reflexivity|]. apply Hin. eauto.
Qed.
Lemma compounding_from_eq : forall vs k, compounding_from vs k = filter (fun i => match nthN vs (i - k) with Some v => kind_is 2 v | None => false end) (seqN k (length vs)).
Proof.
  induction vs as [|v vs IH]; intros k; [reflexivity|]. cbn [compounding_from length seqN filter]. rewrite compounding_kind, N.sub_diag, nthN_0.
  rewrite IH. replace (filter (fun i => match nthN (v :: vs) (i - k) with Some v => kind_is 2 v | None => false end) (seqN (k + 1) (length vs)))
    with (filter (fun i => match nthN vs (i - (k + 1)) with Some v => kind_is 2 v | None => false end) (seqN (k + 1) (length vs))).
  - destruct (kind_is 2 v); reflexivity.
  - apply filter_ext_in. intros i Hi. apply In_seqN in Hi as [Hi _]. replace (i - k) with (i - (k + 1) + 1) by lia. rewrite nthN_succ. reflexivity.
Qed.

(** ** the upgrade *)
Hypothesis Hel : ctx_sane_electra E.
Lemma after_exits_ok s : slot_small s -> (forall v, In v (validators s) -> v_exit_epoch v = FAR_FUTURE_EPOCH \/ v_exit_epoch v < 2 ^ 63) ->
  exists e, upgrade_earliest_exit E (epoch_of E s) (validators s) = Ok e /\ is_after_exits E s e.
Proof.
  intros Hs Hv. pose proof (epoch_small E Hctx s Hs) as He. unfold upgrade_earliest_exit, is_after_exits.
  set (l := filter _ (map v_exit_epoch (validators s))).
  assert (Hl : forall x, In x l -> x < 2 ^ 63).
  { intros x Hx. apply filter_In in Hx as [Hx Hn]. apply in_map_iff in Hx as (v & <- & Hin). destruct (Hv v Hin) as [Hf|Hf]; [|exact Hf].
    rewrite Hf, N.eqb_refl in Hn. discriminate. }
  destruct l as [|x t] eqn:Hd.
  - unfold add. rewrite uadd_ok by (pows; lia). eauto.
  - assert (Hm : In (maxN t x) (x :: t) /\ forall y, In y (x :: t) -> y <= maxN t x).
    { clear. unfold maxN. revert x. induction t as [|z t IH]; intros x; cbn [fold_left].
      - split; [left; reflexivity|]. intros y [->|[]]. lia.
      - destruct (IH (N.max x z)) as [H1 H2]. split.
        + destruct H1 as [H1|H1]; [|right; right; exact H1]. destruct (N.max_spec x z) as [[_ Hx]|[_ Hx]]; rewrite Hx in H1 at 1; [right; left|left]; congruence.
        + intros y [->|[->|Hy]]; [|  |apply H2; right; exact Hy].
          * specialize (H2 _ (or_introl eq_refl)). lia.
          * specialize (H2 _ (or_introl eq_refl)). lia. }
    destruct Hm as [Hm1 Hm2]. pose proof (Hl _ Hm1). unfold add. rewrite uadd_ok by (pows; lia). eexists. split; [reflexivity|]. split.
    + intros y Hy. specialize (Hm2 y Hy). lia.
    + replace (maxN t x + 1 - 1) with (maxN t x) by lia. exact Hm1.
Qed.
Lemma upgrade_electra_run s : slot_small s -> lenN (balances s) = lenN (validators s) -> active_balance_fits E s ->
  (forall v, In v (validators s) -> v_exit_epoch v = FAR_FUTURE_EPOCH \/ v_exit_epoch v < 2 ^ 63) ->
  exists s' pre, upgrade_to_electra E s = Ok s' /\ is_preactivation_order s pre
    /\ keeps_history s s' /\ keeps_altair s s' /\ keeps_capella s s' /\ fork_recorded E s s' (ELECTRA_FORK_VERSION E)
    /\ (let h := latest_execution_payload_header s in let h' := latest_execution_payload_header s' in
        keeps_header h h' /\ eph_withdrawals_root h' = eph_withdrawals_root h
        /\ eph_blob_gas_used h' = eph_blob_gas_used h /\ eph_excess_blob_gas h' = eph_excess_blob_gas h)
    /\ validators s' = map upgraded_record (validators s)
    /\ (lenN (balances s') = lenN (balances s) /\ forall i, i < lenN (validators s) -> nthN (balances s') i = Some (upgraded_balance E s i))
    /\ pending_balance_deposits s' = map (fun i => mkPBD i (balance_at s i)) pre
         ++ map (fun i => mkPBD i (balance_at s i - MIN_ACTIVATION_BALANCE E)) (with_excess E s)
    /\ pending_partial_withdrawals s' = [] /\ pending_consolidations s' = []
    /\ deposit_receipts_start_index s' = 2 ^ 64 - 1 /\ deposit_balance_to_consume s' = 0
    /\ exit_balance_to_consume s' = exit_churn E s /\ is_after_exits E s (earliest_exit_epoch s')
    /\ consolidation_balance_to_consume s' = consolidation_churn E s /\ earliest_consolidation_epoch s' = earliest_exit E s.
Proof.
  intros Hs Hlen Hab Hex. unfold upgrade_to_electra. rewrite (current_epoch_ok E Hctx). cbn [rbind].
  destruct (after_exits_ok s Hs Hex) as (ee & -> & Hee). cbn [rbind]. rewrite (earliest_ok E Hctx s Hs). cbn [rbind].
  set (b := electra_base E (epoch_of E s) ee (earliest_exit E s) s). unfold electra_finish.
  rewrite (run_rd _ _ _ (exit_churn E s)) by (apply (exit_churn_ok E Hctx b); exact Hab). rewrite run_md.
  rewrite (run_rd _ _ _ (consolidation_churn E s)) by (apply (consolidation_churn_ok E Hctx (set_exit_balance_to_consume (exit_churn E s) b)); exact Hab). rewrite run_md.
  set (b1 := set_consolidation_balance_to_consume _ _).
  rewrite (run_rd _ _ _ (key_sort (pre_activation_from (validators s) 0))) by reflexivity.
  set (l := key_sort (pre_activation_from (validators s) 0)). pose proof (preactivation_order s) as Hpre. fold l in Hpre.
  destruct (queue_entire_loop l b1) as (vs & bs & H1 & H2 & H3 & H4 & H5).
  - eapply Permutation_NoDup; [|apply (NoDup_pre_activation (validators s) 0)]. apply Permutation_map, key_sort_perm.
  - exact Hlen.
  - intros p Hp. assert (Hn : not_activated s (snd p) = true) by (apply Hpre; apply in_map; exact Hp).
    unfold not_activated in Hn. destruct (nthN (validators s) (snd p)) as [v|] eqn:Hv; [|discriminate]. eapply nthN_some. exact Hv.
  - rewrite (run_bind _ _ _ _ _ H1). set (b2 := set_pending_balance_deposits _ _).
    change (validators b1) with (validators s) in *. change (balances b1) with (balances s) in *.
    assert (Hmem : forall i, memN i (map snd l) = not_activated s i).
    { intros i. apply eq_true_iff_eq. rewrite memN_true. apply Hpre. }
    assert (Hvs : vs = map upgraded_record (validators s)).
    { apply nthN_ext. intros i. rewrite nthN_map. destruct (nthN (validators s) i) as [v|] eqn:Hv; cbn [option_map].
      - rewrite (H4 i v Hv), Hmem. unfold not_activated. rewrite Hv. unfold upgraded_record. destruct (v_activation_epoch v =? FAR_FUTURE_EPOCH); reflexivity.
      - apply nthN_none. rewrite H2. apply nthN_none. exact Hv. }
    set (comp := filter (is_compounding s) (rangeN (lenN (validators s)))).
    rewrite (run_rd _ _ _ comp).
    2:{ f_equal. unfold b2. gs. rewrite Hvs, compounding_from_eq, map_length. unfold comp, rangeN, lenN. rewrite Nat2N.id.
        apply filter_ext_in. intros i _. rewrite N.sub_0_r, nthN_map. unfold is_compounding. destruct (nthN (validators s) i) as [v|]; [|reflexivity].
        cbn [option_map]. unfold upgraded_record. destruct (v_activation_epoch v =? FAR_FUTURE_EPOCH); reflexivity. }
    assert (Hbal : forall i, i < lenN (validators s) -> balance_at b2 i = if not_activated s i then 0 else balance_at s i).
    { intros i Hi. rewrite <- Hlen in Hi. destruct (nthN_lt _ _ Hi) as [x Hx]. unfold balance_at at 1. unfold b2. gs. rewrite (H5 i x Hx), Hmem. unfold balance_at. rewrite Hx. reflexivity. }
    destruct (queue_excess_loop comp b2) as (bs' & K1 & K2 & K3).
    + apply NoDup_filter, NoDup_rangeN.
    + intros i Hi. apply filter_In in Hi as [Hi _]. apply In_rangeN in Hi. unfold b2. gs. rewrite H3. exact Hi.
    + rewrite K1. cbn [rbind]. eexists. exists (map snd l). split; [reflexivity|]. split; [exact Hpre|].
      assert (Hf : forall i, In i comp -> i < lenN (validators s)) by (intros i Hi; apply filter_In in Hi as [Hi _]; apply In_rangeN in Hi; exact Hi).
      split; [repeat split|]. split; [repeat split|]. split; [repeat split|]. split; [repeat split|]. split; [repeat split|].
      split; [exact Hvs|]. split.
      * split; [change (lenN bs' = lenN (balances s)); rewrite K2; unfold b2; gs; congruence|]. intros i Hi. change (nthN bs' i = Some (upgraded_balance E s i)).
        pose proof Hi as Hi'. rewrite <- Hlen in Hi'. destruct (nthN_lt _ _ Hi') as [x Hx].
        rewrite (K3 i _ (eq_ind_r (fun y => nthN y i = Some (if not_activated s i then 0 else x)) (eq_trans (H5 i x Hx) ltac:(rewrite Hmem; reflexivity)) (eq_refl : balances b2 = bs))).
        unfold upgraded_balance, balance_at. rewrite Hx.
        assert (Hc : memN i comp = is_compounding s i).
        { apply eq_true_iff_eq. rewrite memN_true. unfold comp. rewrite filter_In, In_rangeN. intuition. }
        rewrite Hc. destruct (not_activated s i), (is_compounding s i); f_equal; lia.
      * split.
        -- change (pending_balance_deposits b2 ++ map (fun i => mkPBD i (balance_at b2 i - MIN_ACTIVATION_BALANCE E)) (filter (fun i => MIN_ACTIVATION_BALANCE E <? balance_at b2 i) comp)
             = map (fun i => mkPBD i (balance_at s i)) (map snd l) ++ map (fun i => mkPBD i (balance_at s i - MIN_ACTIVATION_BALANCE E)) (with_excess E s)).
           change (pending_balance_deposits b2) with (map (fun i => mkPBD i (balance_at s i)) (map snd l)). f_equal.
           assert (Hw : filter (fun i => MIN_ACTIVATION_BALANCE E <? balance_at b2 i) comp = with_excess E s).
           { unfold comp, with_excess. rewrite filter_filter_and. apply filter_ext_in. intros i Hi. apply In_rangeN in Hi. rewrite (Hbal i Hi).
             destruct (is_compounding s i), (not_activated s i); cbn [andb negb]; try reflexivity. apply N.ltb_ge. lia. }
           rewrite Hw. apply map_ext_in. intros i Hi. unfold with_excess in Hi. apply filter_In in Hi as [Hi Hc]. apply In_rangeN in Hi. rewrite (Hbal i Hi).
           destruct (not_activated s i); [|reflexivity]. destruct (is_compounding s i); discriminate.
        -- split; [reflexivity|]. split; [reflexivity|]. split; [reflexivity|]. split; [reflexivity|]. split; [reflexivity|]. split; [exact Hee|]. split; reflexivity.
Qed.
End U.
Lemma queued_app l k i : queued_for (l ++ k) i = queued_for l i + queued_for k i.
Proof. unfold queued_for. rewrite filter_app, map_app. apply sumN_app. Qed.
Lemma queued_map (g : N -> N) l i : NoDup l -> queued_for (map (fun j => mkPBD j (g j)) l) i = if memN i l then g i else 0.
Proof.
  induction l as [|x l IH]; intros Hnd; [reflexivity|]. inversion Hnd as [|? ? Hni Hnd']; subst. specialize (IH Hnd').
  unfold queued_for in *. cbn [map filter memN existsb]. fold (memN i l). rewrite N.eqb_sym. cbn [pbd_index].
  destruct (N.eqb_spec i x) as [->|Hne]; cbn [orb].
  - cbn [map pbd_amount]. rewrite sumN_cons, IH, (proj2 (memN_false x l) Hni). lia.
  - exact IH.
Qed.
