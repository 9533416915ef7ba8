(** * Voting weight along a chain (proof file; no model definitions) *)
From Verif Require Import Base BaseLemmas Types Ctx Env Helpers HelpersAltair HelpersElectra Block Epoch Transition Upgrade StLemmas
  SpecCommon SpecHelpers SpecEpoch SpecFinality SpecWeight Frame HelperProofs HelperProofs2 EpochProofs BlockProofs SlotProofs CrashProofs DepositProofs SpecHistory HistoryProofs IssuanceProofs.

Section W.
Variables (E : Env) (f : Fork).
Hypothesis Hc : ctx_sane E.
Hypothesis Hk : chk E = true.
Hypothesis Hm : margin_sane E.
Definition follows_at (s : BeaconState) (i : N) : Prop := exists v b, nthN (validators s) i = Some v /\ nthN (balances s) i = Some b /\ follows E f v b.
Notation h := (EFFECTIVE_BALANCE_INCREMENT E / HYSTERESIS_QUOTIENT E).
Notation D := (h * HYSTERESIS_DOWNWARD_MULTIPLIER E).
Notation U := (h * HYSTERESIS_UPWARD_MULTIPLIER E).
Lemma add_exact a b r : add E a b = Ok r -> r = a + b.
Proof. unfold add, uadd. rewrite Hk. destruct (_ <? _); [intros [= <-]; reflexivity|discriminate]. Qed.
Lemma step_follows j m t : effective_balance_step E f D U j m = (Ok tt, t) ->
  balances t = balances m /\ follows_at t j /\ forall i, i <> j -> nthN (validators t) i = nthN (validators m) i.
Proof.
  intros H. unfold effective_balance_step in H. apply sbind_ok_inv in H as (v & u & A & H). apply inv_rd in A as [A ->]. apply sbind_ok_inv in H as (b & u & B & H). apply inv_rd in B as [B ->]. cbv zeta in H.
  apply sbind_ok_inv in H as (c & u & C & H). apply inv_lift in C as [C ->].
  assert (Hv : nthN (validators m) j = Some v) by (unfold idx in A; destruct (nthN (validators m) j); [injection A as <-; reflexivity|discriminate]).
  assert (Hb : nthN (balances m) j = Some b) by (unfold idx in B; destruct (nthN (balances m) j); [injection B as <-; reflexivity|discriminate]). clear A B.
  apply rbind_ok_inv in C as (x & X & C). apply add_exact in X. subst x.
  destruct c; cbn [swhen] in H.
  - apply sbind_ok_inv in H as (e & u & X & H). apply inv_lift in X as [X ->].
    pose proof (inc_nz E Hc) as Hi. apply rbind_ok_inv in X as (q & Q & X). rewrite umod_ok in Q by exact Hi. injection Q as <-. unfold sub in X. rewrite usub_ok in X by (apply N.mod_le; exact Hi). injection X as <-.
    rewrite (mod_validator_ok _ j _ v Hv) in H. injection H as <-. split; [reflexivity|]. split.
    + eexists _, b. split; [gs; apply nthN_updN_eq; eapply nthN_some; exact Hv|]. split; [exact Hb|]. rewrite (cap_eq E f v). unfold follows. cbv zeta.
      set (w := set_v_effective_balance (N.min (b - b mod EFFECTIVE_BALANCE_INCREMENT E) (balance_cap E f v)) v).
      assert (W : v_effective_balance w = N.min (b - b mod EFFECTIVE_BALANCE_INCREMENT E) (balance_cap E f v)) by reflexivity.
      assert (W' : balance_cap E f w = balance_cap E f v) by reflexivity. rewrite W, W'. clear W W' w. unfold margin_sane in Hm.
      pose proof (N.mod_lt b (EFFECTIVE_BALANCE_INCREMENT E) Hi) as L. clear - L Hm. generalize dependent (b mod EFFECTIVE_BALANCE_INCREMENT E). generalize dependent U. generalize D. generalize (balance_cap E f v).
      generalize (EFFECTIVE_BALANCE_INCREMENT E). intros. lia.
    + intros i Hne. gs. rewrite nthN_updN_ne by congruence. reflexivity.
  - injection H as <-. split; [reflexivity|]. split; [|reflexivity]. exists v, b. split; [exact Hv|]. split; [exact Hb|]. unfold follows. cbv zeta.
    destruct (N.ltb_spec (b + D) (v_effective_balance v)) as [L|L]; [discriminate|]. split; [exact L|]. left. apply rbind_ok_inv in C as (y & Y & C). apply add_exact in Y. subst y.
    apply Ok_inj in C. apply N.ltb_ge in C. exact C.
Qed.
Lemma loop_follows L : forall m t, sfor L (effective_balance_step E f D U) m = (Ok tt, t) -> balances t = balances m /\ forall i, In i L \/ follows_at m i -> follows_at t i.
Proof.
  induction L as [|j L IH]; intros m t H; cbn [sfor] in H; [injection H as <-; split; [reflexivity|]; intros i [[]|X]; exact X|].
  apply sbind_ok_inv in H as ([] & u & H1 & H). destruct (step_follows j m u H1) as (B1 & F1 & N1). destruct (IH u t H) as [B2 F2]. split; [congruence|].
  intros i Hi. apply F2. destruct (N.eq_dec i j) as [->|Hne]; [right; exact F1|]. destruct Hi as [[Hi|Hi]|(v & b & X & Y & Z)]; [congruence|left; exact Hi|].
  right. exists v, b. rewrite N1, B1 by exact Hne. auto.
Qed.
Lemma updates_follow m t : process_effective_balance_updates E f m = (Ok tt, t) -> forall i, i < lenN (validators m) -> follows_at t i.
Proof.
  intros H i Hi. unfold process_effective_balance_updates in H. apply sbind_ok_inv in H as (th & u & A & H). apply inv_lift in A as [A ->].
  apply sbind_ok_inv in H as (n & u & B & H). apply inv_rd in B as [B ->]. injection B as <-.
  assert (T : th = (D, U)).
  { apply rbind_ok_inv in A as (h0 & A0 & A). unfold udiv in A0. destruct (_ =? 0) in A0; [discriminate|]. injection A0 as <-.
    apply rbind_ok_inv in A as (d & A1 & A). apply rbind_ok_inv in A as (w & A2 & A). injection A as <-. unfold mul, umul in A1, A2. rewrite Hk in A1, A2.
    destruct (_ <? _) in A1; [|discriminate]. destruct (_ <? _) in A2; [|discriminate]. injection A1 as <-. injection A2 as <-. reflexivity. }
  subst th. cbn [fst snd] in H. apply loop_follows in H as [_ F]. apply F. left. apply In_rangeN. exact Hi.
Qed.
Definition accounts (s : BeaconState) := (validators s, balances s).
Lemma follows_accounts s t i : accounts t = accounts s -> follows_at s i -> follows_at t i.
Proof. intros H (v & b & X & Y & Z). unfold accounts in H. injection H as A B. exists v, b. rewrite A, B. auto. Qed.
End W.

Section Chain.
Variable E : Env.
Hypothesis Hc : ctx_sane E.
Hypothesis Hk : chk E = true.
Lemma keeps_size f : CrashProofs.keeps (fun s => lenN (validators s)) (process_effective_balance_updates E f).
Proof.
  unfold process_effective_balance_updates, effective_balance_step, mod_validator. repeat first [apply keeps_rd | apply keeps_lift | apply keeps_ret | apply keeps_md; intros; gs; apply lenN_updN | apply keeps_md; reflexivity
    | apply keeps_when | apply keeps_for; intros ? | apply keeps_bind; [|intros ?]; cbv zeta].
Qed.
Lemma epoch_weight f s t : margin_sane E -> process_epoch E f s = (Ok tt, t) -> forall i, i < lenN (validators t) -> follows_at E f t i.
Proof.
  intros Hm H i Hi. unfold process_epoch in H. do 7 apply sbind_ok_inv in H as ([] & ? & _ & H). apply sbind_ok_inv in H as ([] & s8 & H8 & H).
  match type of H with ?m _ = _ => assert (K : CrashProofs.keeps accounts m) end.
  { unfold process_slashings_reset, process_randao_mixes_reset, process_historical_update, process_participation_record_updates, process_participation_flag_updates, process_sync_committee_updates.
    destruct f; repeat first [apply keeps_rd | apply keeps_lift | apply keeps_ret | apply keeps_md; reflexivity | apply keeps_when | apply keeps_bind; [|intros ?]
      | match goal with |- CrashProofs.keeps _ (match ?o with _ => _ end) => destruct o end]. }
  specialize (K s8). rewrite H in K. cbn [snd] in K. eapply follows_accounts; [exact K|].
  eapply updates_follow; [exact Hc|exact Hk|exact Hm|exact H8|].
  pose proof (keeps_size f) as Z. match type of H8 with _ ?x = _ => specialize (Z x) end. rewrite H8 in Z. cbn [snd] in Z. rewrite <- Z.
  assert (V : validators t = validators s8) by (unfold accounts in K; injection K as V _; exact V). rewrite <- V. exact Hi.
Qed.
Lemma slot_weight f s t : margin_sane E -> slot s + 1 < 2 ^ 64 -> process_slots E f (slot s + 1) s = (Ok tt, t) ->
  if (slot s + 1) mod SLOTS_PER_EPOCH E =? 0 then forall i, i < lenN (validators t) -> follows_at E f t i else validators t = validators s.
Proof.
  intros Hm Hb H. assert (Hb' : slot s + 1 < U64) by (rewrite U64_val; pows; lia).
  assert (Ha : advance_slot E f s = (Ok tt, t)).
  { rewrite process_slots_loop in H by lia. replace (N.to_nat (slot s + 1 - slot s)) with 1%nat in H by lia.
    rewrite loop_step in H by lia. apply sbind_ok_inv in H as ([] & m & H1 & H). rewrite loop_done in H; [injection H as <-; exact H1|].
    destruct (advance_inv E Hc f s m Hb' H1) as (s1 & s2 & _ & _ & _ & S2 & ->). gs. lia. }
  destruct (advance_inv E Hc f s t Hb' Ha) as (s1 & s2 & A1 & A2 & A3 & A4 & ->). clear H Ha.
  destruct ((slot s + 1) mod SLOTS_PER_EPOCH E =? 0).
  - intros i Hi. apply (follows_accounts E f s2); [reflexivity|]. exact (epoch_weight f s1 s2 Hm A3 i Hi).
  - subst s2. change (validators (set_slot (slot s1 + 1) s1)) with (validators s1). exact (hd_validators _ _ _ (process_slot_held E f s (Ok tt) s1 A1)).
Qed.
Lemma slot_longer f s t n : process_slots E f n s = (Ok tt, t) -> forall i, i < lenN (validators s) -> i < lenN (validators t).
Proof.
  intros H i Hi. destruct (nthN_lt _ _ Hi) as (v & Hv). destruct (call_across E (f, s) (f, t) (call_slots E f n s (Ok tt) t H)) as [A _].
  destruct (A i v Hv) as (v' & Hv' & _). eapply nthN_some. exact Hv'.
Qed.
Lemma upgrade_same f g s t : chain_call E (f, s) (g, t) -> f <> g -> g <> Electra -> validators t = validators s.
Proof.
  intros H Hne Hg. inversion H; subst; try congruence.
  - eapply upgrade_altair_registry; eassumption.
  - eapply upgrade_bellatrix_registry; eassumption.
  - eapply upgrade_capella_registry; eassumption.
  - eapply upgrade_deneb_registry; eassumption.
Qed.
End Chain.
