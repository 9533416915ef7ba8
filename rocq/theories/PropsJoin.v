(** * No more validators become active per epoch than the churn limit *)
From Verif Require Import Base BaseLemmas Types Ctx Env Helpers HelpersAltair HelpersElectra Block Epoch Transition Upgrade StLemmas
  SpecCommon SpecHelpers SpecEpoch SpecFinality SpecSafety SpecJoin HelperProofs HelperProofs2 SlotProofs EntryProofs JoinProofs Toy Toy2 Toy3 PropsEpoch PropsBlock PropsEntry.

Lemma earliest_mono (E : Env) s t : ctx_sane E -> slot s <= slot t -> earliest_exit E s <= earliest_exit E t.
Proof. intros Hc H. unfold earliest_exit, epoch_of. pose proof (N.div_le_mono _ _ (SLOTS_PER_EPOCH E) ltac:(pose proof (spe_pos E Hc); lia) H). lia. Qed.
(** Before electra: along any chain of slots, blocks and upgrades, in each epoch at most as many validators become active as the largest cap on activations of the
    states of the chain, besides those that were scheduled for it at the start; and an epoch beyond the lookahead of the present one gets nobody yet. *)
Theorem C125_joins_per_epoch (E : Env) p0 z w K : ctx_sane E -> chk E = true -> walk E p0 (z :: w) ->
  (forall g s, In (g, s) (z :: w) -> exists n, activation_cap E g s = Some n /\ n <= K) ->
  forall e, e <> FAR_FUTURE_EPOCH -> joins_at (snd z) e <= joins_at (snd p0) e + (if e <? earliest_exit E (snd z) then K else 0).
Proof.
  intros Hc Hk H. remember (z :: w) as zw eqn:Ez. revert z w Ez.
  induction H as [|p q l H IH Hs]; intros z w Ez Hall e He; injection Ez as <- <-; [lia|].
  assert (I : joins_at (snd p) e <= joins_at (snd p0) e + (if e <? earliest_exit E (snd p) then K else 0)) by (apply (IH _ _ eq_refl); [intros g u Hg; apply Hall; right; exact Hg|exact He]).
  pose proof (earliest_mono E _ _ Hc (step_mono E p q Hc Hs)) as M.
  assert (S : joins_at (snd q) e <= joins_at (snd p) e + (if (e =? earliest_exit E (snd p)) && (earliest_exit E (snd p) <? earliest_exit E (snd q)) then K else 0)).
  { destruct Hs as [f s t Hb Hp|f b s r t Hp|f g s t Hu Hne]; cbn [snd] in *.
    - destruct (Hall f s) as (n & Hn & HK); [right; left; reflexivity|]. assert (Hf : f <> Electra) by (intros ->; discriminate Hn).
      pose proof (joins_slot E Hc Hk f s t e Hf Hb Hp) as J. unfold cap in J. rewrite Hn in J. destruct (_ && _); lia.
    - assert (joins_at t e <= joins_at s e); [|lia]. apply joins_le; [exact He|]. intros i v' Hv.
      destruct (C114_block E f b s r t i v' Hp Hv) as [(v & A1 & A2 & _)|(_ & A2 & _)]; [left; eauto|right; exact A2].
    - assert (joins_at t e <= joins_at s e); [|lia]. apply joins_le; [exact He|]. intros i v' Hv.
      destruct (vup_call E f g s t Hu Hne i v' Hv) as (v & A1 & [B1 B2 B3]). left; eauto. }
  clear - I M S. destruct (N.eqb_spec e (earliest_exit E (snd p))), (N.ltb_spec (earliest_exit E (snd p)) (earliest_exit E (snd q))),
    (N.ltb_spec e (earliest_exit E (snd p))), (N.ltb_spec e (earliest_exit E (snd q))); cbn [andb] in S; lia.
Qed.
(** so over a stretch of epochs at most the limit times its length become active, besides those scheduled at the start *)
Lemma joins_within_0 s a : joins_within s a 0 = 0.
Proof.
  unfold joins_within. induction (validators s) as [|v l IH]; [reflexivity|]. cbn [filter]. destruct (N.leb_spec a (v_activation_epoch v)), (N.ltb_spec (v_activation_epoch v) (a + 0)); cbn [andb]; try exact IH. lia.
Qed.
Lemma joins_within_S s a n : joins_within s a (N.succ n) = joins_within s a n + joins_at s (a + n).
Proof.
  unfold joins_within, joins_at. induction (validators s) as [|v l IH]; [reflexivity|]. cbn [filter].
  destruct (N.leb_spec a (v_activation_epoch v)), (N.ltb_spec (v_activation_epoch v) (a + N.succ n)), (N.ltb_spec (v_activation_epoch v) (a + n)), (N.eqb_spec (v_activation_epoch v) (a + n));
    cbn [andb]; rewrite ?lenN_cons; lia.
Qed.
Theorem C125_growth (E : Env) p0 z w K : ctx_sane E -> chk E = true -> walk E p0 (z :: w) ->
  (forall g s, In (g, s) (z :: w) -> exists n, activation_cap E g s = Some n /\ n <= K) ->
  forall a n, a + n <= FAR_FUTURE_EPOCH -> joins_within (snd z) a n <= joins_within (snd p0) a n + K * n.
Proof.
  intros Hc Hk H Ha a n. induction n as [|n IH] using N.peano_ind; intros Hn; [rewrite !joins_within_0; lia|].
  assert (Hne : a + n <> FAR_FUTURE_EPOCH) by lia. pose proof (C125_joins_per_epoch E p0 z w K Hc Hk H Ha _ Hne) as B.
  assert (Hn' : a + n <= FAR_FUTURE_EPOCH) by lia. specialize (IH Hn'). rewrite !joins_within_S, N.mul_succ_r. destruct (a + n <? _); lia.
Qed.

(** an epoch ends: two of the validators in line become active in epoch 8, and the limit is 2 *)
Definition joined_after : BeaconState := snd (process_slots tiny Altair 16 epoch_toy).
Lemma both_joins (P : Fork -> BeaconState -> Prop) f a g b : P f a -> P g b -> forall h s, In (h, s) [(f, a); (g, b)] -> P h s.
Proof. intros A B h s [H|[H|[]]]; injection H as <- <-; assumption. Qed.
Example C125_example : ctx_sane tiny /\ chk tiny = true /\ walk tiny (Altair, epoch_toy) [(Altair, joined_after); (Altair, epoch_toy)]
  /\ (forall g s, In (g, s) [(Altair, joined_after); (Altair, epoch_toy)] -> exists n, activation_cap tiny g s = Some n /\ n <= 2)
  /\ joins_at epoch_toy 8 = 0 /\ joins_at joined_after 8 = 2 /\ earliest_exit tiny joined_after = 9.
Proof.
  split; [exact tiny_sane|]. split; [reflexivity|]. split; [apply C114_example|].
  assert (B1 : churn_limit tiny joined_after = 2) by (vm_compute; reflexivity). assert (B2 : churn_limit tiny epoch_toy = 2) by (vm_compute; reflexivity).
  split; [|repeat split; vm_compute; reflexivity]. apply (both_joins (fun g s => exists n, activation_cap tiny g s = Some n /\ n <= 2)).
  - exists (churn_limit tiny joined_after). split; [reflexivity|]. rewrite B1. apply N.le_refl.
  - exists (churn_limit tiny epoch_toy). split; [reflexivity|]. rewrite B2. apply N.le_refl.
Qed.

Print Assumptions C125_joins_per_epoch.
Print Assumptions C125_growth.
