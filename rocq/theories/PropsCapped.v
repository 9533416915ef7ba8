(** * No validator's voting weight ever exceeds its cap *)
From Verif Require Import Base BaseLemmas Types Ctx Presets Env Helpers HelpersAltair HelpersElectra Block Epoch Transition Upgrade Genesis StLemmas
  SpecCommon SpecHelpers SpecOps SpecFlow SpecEpoch SpecGenesis SpecHistory SpecCapped CappedProofs Toy Toy2 Toy3 PropsEpoch PropsGenesis.
From Coq Require Import Relations.

Lemma weighed_in E f s : all_weighed E f s <-> forall v, In v (validators s) -> well_weighed E f v.
Proof.
  split.
  - intros H v Hv. destruct (In_nthN _ _ Hv) as (i & Hi). exact (H i v Hi).
  - intros H i v Hv. apply H. eapply nthN_In. exact Hv.
Qed.
(** Whatever calls are made on a state, in whatever order and with whatever outcome: if every validator's voting weight is within its cap and a whole number of
    increments at the start, it is so at the end, for the validators registered meanwhile too, and with the caps of the fork the state is then in. *)
Theorem C128_weight_capped (E : Env) p q : caps_sane E -> history E p q -> (forall v, In v (validators (snd p)) -> well_weighed E (fst p) v) ->
  forall v, In v (validators (snd q)) -> well_weighed E (fst q) v.
Proof.
  intros Hs H A. apply weighed_in. apply weighed_in in A. induction H as [a b H|a|a b c H1 IH1 H2 IH2]; [exact (weighed_call E Hs a b H A)|exact A|auto].
Qed.
(** The state built from deposits is such a start. *)
Theorem C128_from_genesis (E : Env) f block_hash timestamp ds h s q : caps_sane E ->
  ctx_sane E -> f <> Electra -> (exists dom, deposit_domain E dom) -> lenN ds < 2 ^ 64 -> sumN (map dd_amount (map dep_data ds)) < 2 ^ 64 -> timestamp + GENESIS_DELAY E < 2 ^ 64 ->
  initialize_beacon_state_from_eth1 E f block_hash timestamp ds h = Ok s -> history E (f, s) q -> forall v, In v (validators (snd q)) -> well_weighed E (fst q) v.
Proof.
  intros Hs Hc Hf Hd Hl Hm Ht H Hh. apply (C128_weight_capped E (f, s) q Hs Hh). cbn [fst snd].
  destruct (proj2 (C70_genesis E f block_hash timestamp ds h Hc Hf Hd Hl Hm Ht) s H) as (_ & _ & _ & _ & (r & _ & (V & _)) & _). rewrite V. intros v Hv.
  apply in_map_iff in Hv as (e & <- & _). destruct Hs as (Hi & _ & _ & Hx & _).
  assert (W : v_effective_balance (genesis_validator E e) = genesis_effective E (en_balance e)) by reflexivity.
  assert (B : balance_cap E f (genesis_validator E e) = MAX_EFFECTIVE_BALANCE E) by (destruct f; congruence || reflexivity).
  split; rewrite W; [rewrite B; apply N.le_min_r|]. unfold genesis_effective.
  match goal with |- N.min ?a ?b mod _ = 0 => destruct (N.min_spec a b) as [[_ ->]|[_ ->]] end; [apply N.mod_mul; exact Hi|exact Hx].
Qed.
(** the configurations of the networks have such caps *)
Example C128_networks : Forall caps_sane [ctx_mainnet; ctx_minimal; ctx_goerli; ctx_sepolia; ctx_holesky; ctx_hoodi].
Proof. repeat constructor; vm_compute; discriminate. Qed.
(** an epoch ends in which the weights of three validators change: one of them lost most of its stake *)
Definition capped_after : BeaconState := snd (process_slots tiny Altair 16 epoch_toy).
Example C128_example : caps_sane tiny /\ history tiny (Altair, epoch_toy) (Altair, capped_after)
  /\ (forall v, In v (validators epoch_toy) -> well_weighed tiny Altair v)
  /\ map v_effective_balance (validators epoch_toy) = [32000000000; 16000000000; 32000000000; 32000000000; 32000000000; 32000000000]
  /\ map v_effective_balance (validators capped_after) = [6000000000; 16000000000; 32000000000; 32000000000; 29000000000; 0].
Proof.
  split; [repeat split; vm_compute; discriminate|]. split; [apply rt_step; eapply call_slots; apply surjective_pairing|]. split.
  - assert (K : forallb (fun v => (v_effective_balance v <=? MAX_EFFECTIVE_BALANCE tiny) && (v_effective_balance v mod EFFECTIVE_BALANCE_INCREMENT tiny =? 0)) (validators epoch_toy) = true) by (vm_compute; reflexivity).
    rewrite forallb_forall in K. intros v Hv. specialize (K v Hv). apply andb_true_iff in K as [K1 K2]. apply N.leb_le in K1. apply N.eqb_eq in K2. split; assumption.
  - split; vm_compute; reflexivity.
Qed.

Print Assumptions C128_weight_capped.
Print Assumptions C128_from_genesis.
