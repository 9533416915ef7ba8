(** * How many validators become active per epoch along a chain (proof file; no model definitions) *)
From Verif Require Import Base BaseLemmas Types Ctx Env Helpers HelpersAltair HelpersElectra Block Epoch Transition Upgrade StLemmas
  SpecCommon SpecHelpers SpecEpoch SpecFinality SpecJoin Frame HelperProofs HelperProofs2 BlockProofs SlotProofs CrashProofs DepositProofs LookProofs ChurnProofs.

Lemma nthN_succ {A} (x : A) l i : nthN (x :: l) (i + 1) = nthN l i.
Proof. rewrite nthN_cons. destruct (N.eqb_spec (i + 1) 0); [lia|]. replace (i + 1 - 1) with i by lia. reflexivity. Qed.
(** whoever has an activation epoch had the same before *)
Lemma joins_le s t e : e <> FAR_FUTURE_EPOCH ->
  (forall i v', nthN (validators t) i = Some v' -> (exists v, nthN (validators s) i = Some v /\ v_activation_epoch v' = v_activation_epoch v) \/ v_activation_epoch v' = FAR_FUTURE_EPOCH) ->
  joins_at t e <= joins_at s e.
Proof.
  intros He. unfold joins_at. generalize (validators s). induction (validators t) as [|v' l IH]; intros l0 H; [cbn [filter]; apply N.le_0_l|].
  pose proof (H 0 v' eq_refl) as H0. destruct l0 as [|v l0].
  - destruct H0 as [(v & A & _)|A]; [discriminate|]. cbn [filter]. destruct (N.eqb_spec (v_activation_epoch v') e); [congruence|]. apply (IH []). intros i w Hw. specialize (H (i + 1) w).
    rewrite nthN_succ in H. destruct (H Hw) as [(x & X & _)|X]; [discriminate|right; exact X].
  - assert (I : lenN (filter (fun x => v_activation_epoch x =? e) l) <= lenN (filter (fun x => v_activation_epoch x =? e) l0)).
    { apply IH. intros i w Hw. specialize (H (i + 1) w). rewrite !nthN_succ in H. exact (H Hw). }
    cbn [filter]. destruct H0 as [(x & X & Y)|Y]; [injection X as <-; rewrite Y|];
      [destruct (v_activation_epoch v =? e); rewrite ?lenN_cons; lia|]. destruct (N.eqb_spec (v_activation_epoch v') e); [congruence|]. destruct (v_activation_epoch v =? e); rewrite ?lenN_cons; lia.
Qed.

Section R.
Variable E : Env.
Hypothesis Hc : ctx_sane E.
Hypothesis Hk : chk E = true.
Definition start_column (s : BeaconState) := (slot s, map v_activation_epoch (validators s)).
Notation kA := (CrashProofs.keeps start_column).
Lemma joins_column s t e : start_column t = start_column s -> joins_at t e = joins_at s e.
Proof.
  intros H. unfold joins_at. rewrite (count_map v_activation_epoch (fun x => x =? e) (validators t)), (count_map v_activation_epoch (fun x => x =? e) (validators s)).
  apply (f_equal snd) in H. unfold start_column, snd in H. rewrite H. reflexivity.
Qed.
Lemma spans_column s t : spans t = spans s -> start_column t = start_column s.
Proof.
  intros H. pose proof (f_equal fst H) as A. pose proof (f_equal snd H) as B. unfold spans in A, B. cbn [fst snd] in A, B. unfold start_column. rewrite A. f_equal.
  apply (f_equal (map fst)) in B. rewrite !map_map in B. exact B.
Qed.
Lemma ka_mod i g : (forall v, v_activation_epoch (g v) = v_activation_epoch v) -> kA (mod_validator i g).
Proof.
  intros Hg s. unfold mod_validator, sbind, rd, md, idx. destruct (nthN (validators s) i) as [v|] eqn:Hv; cbn [snd]; [|reflexivity].
  exact (f_equal (pair (slot s)) (map_updN_same v_activation_epoch _ _ _ (g v) Hv (Hg v))).
Qed.
Ltac ka := repeat first [apply ka_mod; intros ?; reflexivity
  | apply keeps_rd | apply keeps_lift | apply keeps_ret | apply keeps_md; reflexivity | apply keeps_when | apply keeps_for; intros ? | apply keeps_sfold; intros ? ?
  | apply keeps_bind; [|intros ?] | progress cbv zeta | match goal with |- CrashProofs.keeps _ (match ?x with _ => _ end) => destruct x end].
Lemma ka_step f c i : f <> Electra -> kA (registry_step E f c i).
Proof.
  intros Hf. unfold registry_step. assert (He : initiate_exit E f i = initiate_validator_exit E i) by (destruct f; try reflexivity; contradiction). rewrite He. unfold initiate_validator_exit. ka.
Qed.
(** activating the validators of a list *)
Lemma joins_activate ae l : forall m t e, sfor l (fun i => mod_validator i (set_v_activation_epoch ae)) m = (Ok tt, t) ->
  joins_at t e <= joins_at m e + (if e =? ae then lenN l else 0).
Proof.
  induction l as [|i l IH]; intros m t e H; cbn [sfor] in H; [injection H as <-; destruct (e =? ae); lia|].
  apply sbind_ok_inv in H as ([] & u & H1 & H). specialize (IH u t e H). clear H.
  assert (S : joins_at u e <= joins_at m e + (if e =? ae then 1 else 0)).
  { clear IH. unfold mod_validator in H1. apply sbind_ok_inv in H1 as (v & w & A & H1). apply inv_rd in A as [A ->]. unfold md in H1. injection H1 as <-. unfold idx in A.
    destruct (nthN (validators m) i) as [v0|] eqn:Hv; [|discriminate]. injection A as <-. unfold joins_at. gs.
    pose proof (filter_upd_count (fun x => v_activation_epoch x =? e) _ _ _ (set_v_activation_epoch ae v0) Hv) as C. cbn beta in C. change (v_activation_epoch (set_v_activation_epoch ae v0)) with ae in C.
    rewrite (N.eqb_sym e ae). destruct (ae =? e), (v_activation_epoch v0 =? e); lia. }
  rewrite lenN_cons. destruct (e =? ae); lia.
Qed.
Definition cap (f : Fork) (s : BeaconState) : N := match activation_cap E f s with Some n => n | None => 0 end.
Lemma joins_registry f s t e : f <> Electra -> process_registry_updates E f s = (Ok tt, t) ->
  joins_at t e <= joins_at s e + (if e =? earliest_exit E s then cap f s else 0).
Proof.
  intros Hf H. unfold process_registry_updates in H. apply sbind_ok_inv in H as (c & s0 & H0 & H). apply inv_rd in H0 as [H0 ->]. rewrite (current_epoch_ok E Hc) in H0. injection H0 as <-.
  apply sbind_ok_inv in H as (n & s0 & H0 & H). apply inv_rd in H0 as [H0 ->]. apply sbind_ok_inv in H as ([] & m & H1 & H).
  assert (P : pres (orderly E) (sfor (rangeN n) (registry_step E f (epoch_of E s)))) by (apply pres_for; [exact (orderly_refl E)|exact (orderly_trans E)|]; intros ?; apply po_registry_step; assumption).
  specialize (P s). rewrite H1 in P. cbn [snd] in P. destruct P as [P _].
  assert (Q : kA (sfor (rangeN n) (registry_step E f (epoch_of E s)))) by (apply keeps_for; intros ?; apply ka_step; exact Hf). specialize (Q s). rewrite H1 in Q. cbn [snd] in Q.
  assert (H' : (let* queue := rd (fun s => Ok (activation_queue s)) in let* ae := lift (compute_activation_exit_epoch E (epoch_of E s)) in
    let* limit := rd (activation_limit E f) in sfor (firstN limit queue) (fun i => mod_validator i (set_v_activation_epoch ae))) m = (Ok tt, t)) by (destruct f; try exact H; contradiction).
  clear H. apply sbind_ok_inv in H' as (qu & s0 & H2 & H). apply inv_rd in H2 as [_ ->]. apply sbind_ok_inv in H as (ae & s0 & H2 & H). apply inv_lift in H2 as [H2 ->].
  apply sbind_ok_inv in H as (li & s0 & H3 & H). apply inv_rd in H3 as [H3 ->].
  assert (Ha : ae = earliest_exit E s).
  { unfold compute_activation_exit_epoch in H2. apply rbind_ok_inv in H2 as (a1 & A1 & A2). unfold add in A1, A2. rewrite Hk in A1, A2. unfold uadd in A1, A2.
    destruct (_ <? U64) in A1; [|discriminate]. destruct (_ <? U64) in A2; [|discriminate]. injection A1 as <-. injection A2 as <-. reflexivity. }
  assert (Hl : li = cap f s).
  { unfold cap. destruct f; cbn [activation_cap activation_limit] in *; try contradiction; unfold get_validator_activation_churn_limit in H3; rewrite (churn_limit_ok E Hc m), P in H3; cbn [rbind] in H3; injection H3 as <-; reflexivity. }
  pose proof (joins_activate ae _ m t e H) as J. rewrite (joins_column s m e Q) in J. rewrite <- Ha, <- Hl.
  assert (L : lenN (firstN li qu) <= li) by (unfold lenN, firstN; rewrite firstn_length; lia). destruct (e =? ae); lia.
Qed.
Lemma joins_epoch f s t e : f <> Electra -> process_epoch E f s = (Ok tt, t) ->
  joins_at t e <= joins_at s e + (if e =? earliest_exit E s then cap f s else 0).
Proof.
  intros Hf H. unfold process_epoch in H. assert (Hne : fork_le Electra f = false) by (destruct f; try reflexivity; contradiction). rewrite Hne in H.
  assert (G : forall a b (m : St BeaconState unit), CrashProofs.keeps spans m -> m a = (Ok tt, b) -> spans b = spans a) by (intros a b m P Q; pose proof (P a) as X; rewrite Q in X; exact X).
  apply sbind_ok_inv in H as ([] & s1 & H1 & H). apply G in H1; [|apply ks_justify]. apply sbind_ok_inv in H as ([] & s2 & H2 & H). apply G in H2; [|apply keeps_when; apply ks_inact].
  apply sbind_ok_inv in H as ([] & s3 & H3 & H). apply G in H3; [|apply ks_rewards]. apply sbind_ok_inv in H as ([] & s4 & H4 & H).
  apply sbind_ok_inv in H as ([] & s5 & H5 & H). apply G in H5; [|apply ks_slashings]. apply sbind_ok_inv in H as ([] & s6 & H6 & H). apply G in H6; [|apply ks_eth1r].
  apply sbind_ok_inv in H as ([] & s7 & H7 & H). apply G in H7; [|apply keeps_ret].
  apply sbind_ok_inv in H as ([] & s8 & H8 & H). apply G in H8; [|apply ks_eff]. apply sbind_ok_inv in H as ([] & s9 & H9 & H). apply G in H9; [|apply ks_slashr].
  apply sbind_ok_inv in H as ([] & u & H10 & H). apply G in H10; [|apply ks_randaor]. apply sbind_ok_inv in H as ([] & s11 & H11 & H). apply G in H11; [|apply ks_hist]. apply G in H; [|apply ks_part].
  assert (A : spans s3 = spans s) by congruence. assert (B : spans t = spans s4) by congruence.
  rewrite (joins_column s4 t e (spans_column _ _ B)). pose proof (joins_registry f s3 s4 e Hf H4) as R. rewrite (joins_column s s3 e (spans_column _ _ A)) in R.
  assert (X : earliest_exit E s3 = earliest_exit E s) by (unfold earliest_exit, epoch_of; rewrite (f_equal fst A : slot s3 = slot s); reflexivity).
  assert (Y : cap f s3 = cap f s) by (unfold cap, activation_cap; rewrite !churn_spans, A; reflexivity). rewrite X, Y in R. exact R.
Qed.
(** a slot: at the end of an epoch at most the cap is given the epoch after the lookahead *)
Lemma joins_slot f s t e : f <> Electra -> slot s + 1 < 2 ^ 64 -> process_slots E f (slot s + 1) s = (Ok tt, t) ->
  joins_at t e <= joins_at s e + (if (e =? earliest_exit E s) && (earliest_exit E s <? earliest_exit E t) then cap f s else 0).
Proof.
  intros Hf Hb H. assert (Hb' : slot s + 1 < U64) by (rewrite U64_val; pows; lia).
  assert (Ha : advance_slot E f s = (Ok tt, t)).
  { rewrite process_slots_loop in H by lia. replace (N.to_nat (slot s + 1 - slot s)) with 1%nat in H by lia.
    rewrite loop_step in H by lia. apply sbind_ok_inv in H as ([] & m & H1 & H). rewrite loop_done in H; [injection H as <-; exact H1|].
    destruct (advance_inv E Hc f s m Hb' H1) as (s1 & s2 & _ & _ & _ & S2 & ->). gs. lia. }
  destruct (advance_inv E Hc f s t Hb' Ha) as (s1 & s2 & A1 & A2 & A3 & A4 & ->).
  assert (P : spans s1 = spans s) by (pose proof (ks_slot E f s) as P; rewrite A1 in P; exact P).
  change (joins_at (set_slot (slot s2 + 1) s2) e) with (joins_at s2 e).
  assert (J : joins_at s1 e = joins_at s e) by (apply joins_column, spans_column; exact P).
  destruct (N.eqb_spec ((slot s + 1) mod SLOTS_PER_EPOCH E) 0) as [Hm|Hm]; [|subst s2; rewrite J; clear; lia].
  pose proof (joins_epoch f s1 s2 e Hf A3) as R. rewrite J in R.
  assert (X : earliest_exit E s1 = earliest_exit E s) by (unfold earliest_exit, epoch_of; rewrite A2; reflexivity).
  assert (Y : cap f s1 = cap f s) by (unfold cap, activation_cap; rewrite !churn_spans, P; reflexivity). rewrite X, Y in R.
  assert (Z : earliest_exit E s < earliest_exit E (set_slot (slot s2 + 1) s2)).
  { unfold earliest_exit, epoch_of. gs. rewrite A4. pose proof (spe_pos E Hc) as Hp. pose proof (N.div_mod (slot s + 1) (SLOTS_PER_EPOCH E) ltac:(lia)) as D. rewrite Hm in D.
    assert (slot s / SLOTS_PER_EPOCH E < (slot s + 1) / SLOTS_PER_EPOCH E); [|lia]. apply N.div_lt_upper_bound; lia. }
  apply N.ltb_lt in Z. rewrite Z, andb_true_r. exact R.
Qed.
End R.
