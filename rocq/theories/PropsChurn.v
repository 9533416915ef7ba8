(** * No more validators leave per epoch than the churn limit *)
From Verif Require Import Base BaseLemmas Types Ctx Env Helpers HelpersAltair HelpersElectra Block Epoch Transition Upgrade StLemmas
  SpecCommon SpecHelpers SpecFinality SpecCulprits HelperProofs HelperProofs2 LookProofs ChurnProofs Toy Toy2 Toy3 PropsOps PropsInvariants PropsBlock PropsAuthority PropsCulprits.

(** Before electra: along any chain of slots, blocks (accepted or not) and upgrades, the validators that leave in an epoch are at most as many as the largest
    churn limit of the states of the chain, or as were scheduled for that epoch at its start. *)
Theorem C124_exits_per_epoch (E : Env) p0 z w K : ctx_sane E -> chk E = true -> calm E p0 (z :: w) ->
  (forall g s, In (g, s) (z :: w) -> g <> Electra /\ churn_limit E s <= K) ->
  forall e, e <> FAR_FUTURE_EPOCH -> exits_at (snd z) e <= N.max (exits_at (snd p0) e) K.
Proof. exact (churn_runs E p0 z w K). Qed.
(** So over a stretch of epochs at most the limit times its length can leave: how fast the validator set can turn over. *)
Theorem C124_turnover (E : Env) p0 z w K : ctx_sane E -> chk E = true -> calm E p0 (z :: w) ->
  (forall g s, In (g, s) (z :: w) -> g <> Electra /\ churn_limit E s <= K) -> (forall e, e <> FAR_FUTURE_EPOCH -> exits_at (snd p0) e <= K) ->
  forall a n, a + n <= FAR_FUTURE_EPOCH -> lenN (filter (fun v => (a <=? v_exit_epoch v) && (v_exit_epoch v <? a + n)) (validators (snd z))) <= K * n.
Proof.
  intros Hc Hk H Ha H0 a n. induction n as [|n IH] using N.peano_ind; intros Hn.
  - assert (F : filter (fun v => (a <=? v_exit_epoch v) && (v_exit_epoch v <? a + 0)) (validators (snd z)) = []); [|rewrite F; change (lenN (@nil Validator)) with 0; lia].
    induction (validators (snd z)) as [|v l IHl]; [reflexivity|]. cbn [filter]. destruct (N.leb_spec a (v_exit_epoch v)), (N.ltb_spec (v_exit_epoch v) (a + 0)); cbn [andb]; try exact IHl. lia.
  - assert (Hx : exits_at (snd z) (a + n) <= K).
    { assert (Hne : a + n <> FAR_FUTURE_EPOCH) by lia. pose proof (C124_exits_per_epoch E p0 z w K Hc Hk H Ha _ Hne) as B. specialize (H0 _ Hne). lia. }
    assert (S : lenN (filter (fun v => (a <=? v_exit_epoch v) && (v_exit_epoch v <? a + N.succ n)) (validators (snd z)))
      = lenN (filter (fun v => (a <=? v_exit_epoch v) && (v_exit_epoch v <? a + n)) (validators (snd z))) + exits_at (snd z) (a + n)).
    { unfold exits_at. clear. induction (validators (snd z)) as [|v l IHl]; [reflexivity|]. cbn [filter].
      destruct (N.leb_spec a (v_exit_epoch v)), (N.ltb_spec (v_exit_epoch v) (a + N.succ n)), (N.ltb_spec (v_exit_epoch v) (a + n)), (N.eqb_spec (v_exit_epoch v) (a + n)); cbn [andb]; rewrite ?lenN_cons; lia. }
    rewrite S. assert (Hn' : a + n <= FAR_FUTURE_EPOCH) by lia. specialize (IH Hn'). rewrite N.mul_succ_r. lia.
Qed.

Lemma both (P : Fork -> BeaconState -> Prop) f a g b : P f a -> P g b -> forall h s, In (h, s) [(f, a); (g, b)] -> P h s.
Proof. intros A B h s [H|[H|[]]]; injection H as <- <-; assumption. Qed.
(** one block slashes two validators, and both leave in epoch 8: the limit is 2 *)
Example C124_example : ctx_sane tiny /\ chk tiny = true /\ calm tiny (Capella, slash_toy) [(Capella, guilty_after); (Capella, slash_toy)]
  /\ (forall g s, In (g, s) [(Capella, guilty_after); (Capella, slash_toy)] -> g <> Electra /\ churn_limit tiny s <= 2)
  /\ exits_at slash_toy 8 = 0 /\ exits_at guilty_after 8 = 2.
Proof.
  split; [exact tiny_sane|]. split; [reflexivity|]. split; [apply C120_example|].
  assert (B1 : churn_limit tiny guilty_after = 2) by (vm_compute; reflexivity). assert (B2 : churn_limit tiny slash_toy = 2) by (vm_compute; reflexivity).
  split; [|split; vm_compute; reflexivity]. apply (both (fun g s => g <> Electra /\ churn_limit tiny s <= 2)); (split; [discriminate|]).
  - rewrite B1. apply N.le_refl.
  - rewrite B2. apply N.le_refl.
Qed.

Print Assumptions C124_exits_per_epoch.
Print Assumptions C124_turnover.
