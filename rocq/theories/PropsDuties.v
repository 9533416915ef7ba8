(** * C96: duties are known in advance *)
From Verif Require Import Base Types Ctx Env Helpers Block Epoch Transition Upgrade SpecCommon SpecHistory SpecAtt SpecFinality SpecDuties HelperProofs2 LookProofs
  Presets HistoryProofs Toy Toy2 Toy3 PropsFinality PropsVotes.
From Coq Require Import Relations.

(** ** C96: whatever blocks arrive, who is active is fixed MAX_SEED_LOOKAHEAD epochs ahead, and committees MIN_SEED_LOOKAHEAD epochs ahead *)
Theorem C96_active_set : forall (E : Env) (f g : Fork) (s s' : BeaconState) (e : N),
  chk E = true -> history E (f, s) (g, s') -> activity_decided E s e -> e < FAR_FUTURE_EPOCH ->
  get_active_validator_indices s' e = get_active_validator_indices s e /\ active_set s' e = active_set s e.
Proof.
  intros E f g s s' e Hk Hh Hd Hf. pose proof (looks_history E Hk _ _ Hh) as L. cbn [snd] in L.
  split; [apply (active_fixed E s s' e L Hd Hf)|apply (lk_active E s s' L); assumption].
Qed.
Theorem C96_committees : forall (E : Env) (f g : Fork) (s s' : BeaconState) (sl c : N),
  chk E = true -> lookahead_sane E -> history E (f, s) (g, s') ->
  committees_decided E s (sl / SLOTS_PER_EPOCH E) -> seed_available E s' (sl / SLOTS_PER_EPOCH E) -> sl / SLOTS_PER_EPOCH E < FAR_FUTURE_EPOCH ->
  get_beacon_committee E s' sl c = get_beacon_committee E s sl c.
Proof.
  intros E f g s s' sl c Hk [L1 L2] Hh Hd Ha Hf. pose proof (looks_history E Hk _ _ Hh) as L. cbn [snd] in L.
  apply (committee_fixed E Hk s s' sl c L); try assumption. lia.
Qed.
(** the same, said of the committees as the consensus rules define them *)
Theorem C96_committees_as_specified : forall (E : Env) (f g : Fork) (s s' : BeaconState) (sl c : N) (members : list N),
  chk E = true -> lookahead_sane E -> history E (f, s) (g, s') ->
  committees_decided E s (sl / SLOTS_PER_EPOCH E) -> seed_available E s' (sl / SLOTS_PER_EPOCH E) -> sl / SLOTS_PER_EPOCH E < FAR_FUTURE_EPOCH ->
  committees_in_slot E s' (sl / SLOTS_PER_EPOCH E) = committees_in_slot E s (sl / SLOTS_PER_EPOCH E)
  /\ (is_committee E s' sl c members <-> is_committee E s sl c members).
Proof.
  intros E f g s s' sl c com Hk [L1 L2] Hh Hd Ha Hf. pose proof (looks_history E Hk _ _ Hh) as L. cbn [snd] in L.
  apply (committee_spec_fixed E s s' sl c com L); try assumption. lia.
Qed.
(** who proposes in each slot of an epoch is fixed as soon as the epoch has begun *)
Theorem C96_proposers : forall (E : Env) (f g : Fork) (s s' : BeaconState) (sl : N),
  chk E = true -> lookahead_sane E -> SpecFinality.chain E (f, s) (g, s') ->
  epoch_of E s' = epoch_of E s -> sl / SLOTS_PER_EPOCH E = epoch_of E s -> epoch_of E s < FAR_FUTURE_EPOCH ->
  get_beacon_proposer_index E (set_slot sl s') = get_beacon_proposer_index E (set_slot sl s).
Proof.
  intros E f g s s' sl Hk [L1 L2] Hh He Hsl Hf. pose proof (quiet_chain E Hk _ _ Hh) as Q. cbn [snd] in Q.
  apply (proposer_fixed E Hk s s' sl Q); assumption.
Qed.
Theorem C96_networks : forall c, In c [ctx_mainnet; ctx_minimal; ctx_goerli; ctx_sepolia; ctx_holesky; ctx_hoodi] -> lookahead_sane c.
Proof. intros c H. repeat (destruct H as [<-|H]; [split; vm_compute; congruence|]). destruct H. Qed.

(** ** Examples *)
Lemma tiny_lookahead : lookahead_sane tiny. Proof. split; vm_compute; congruence. Qed.
(** over an epoch boundary: the committee of slot 17, one epoch ahead *)
Example C96_example : exists s', chk tiny = true /\ lookahead_sane tiny /\ history tiny (Deneb, fin_toy) (Deneb, s')
  /\ activity_decided tiny fin_toy 4 /\ committees_decided tiny fin_toy (17 / SLOTS_PER_EPOCH tiny) /\ seed_available tiny s' (17 / SLOTS_PER_EPOCH tiny)
  /\ slot fin_toy = 15 /\ slot s' = 16 /\ get_beacon_committee tiny s' 17 0 = Ok [3].
Proof.
  destruct C16_toy_chain as (s' & Hc & Hs & _). pose proof (chain_history _ _ _ Hc) as Hh. exists s'.
  split; [reflexivity|]. split; [exact tiny_lookahead|]. split; [exact Hh|]. split; [vm_compute; discriminate|]. split; [vm_compute; discriminate|].
  assert (Ha : seed_available tiny s' (17 / SLOTS_PER_EPOCH tiny)) by (unfold seed_available, epoch_of; rewrite Hs; vm_compute; reflexivity).
  split; [exact Ha|]. split; [reflexivity|]. split; [exact Hs|].
  rewrite (C96_committees tiny Deneb Deneb fin_toy s' 17 0 eq_refl tiny_lookahead Hh ltac:(vm_compute; discriminate) Ha ltac:(vm_compute; reflexivity)).
  vm_compute. reflexivity.
Qed.
(** inside an epoch, over a slot and a block with a new randao reveal: the proposers of all its slots stay, the committees two epochs ahead do not *)
Example C96_proposers_example : chk tiny = true /\ lookahead_sane tiny /\ SpecFinality.chain tiny (Phase0, chain_one) (Phase0, chain_two)
  /\ epoch_of tiny chain_two = epoch_of tiny chain_one /\ randao_mixes chain_two <> randao_mixes chain_one
  /\ map (fun sl => get_beacon_proposer_index tiny (set_slot sl chain_two)) [0; 1; 2; 3] = map (fun sl => get_beacon_proposer_index tiny (set_slot sl chain_one)) [0; 1; 2; 3].
Proof.
  split; [reflexivity|]. split; [exact tiny_lookahead|].
  assert (Hc : SpecFinality.chain tiny (Phase0, chain_one) (Phase0, chain_two)) by (apply rt_step; eapply chain_block; unfold chain_two; apply surjective_pairing).
  split; [exact Hc|]. assert (He : epoch_of tiny chain_two = epoch_of tiny chain_one) by (vm_compute; reflexivity). split; [exact He|].
  split; [intros H; assert (X : existsb (fun p => negb (bytes_eqb (fst p) (snd p))) (combine (randao_mixes chain_two) (randao_mixes chain_one)) = true) by (vm_compute; reflexivity);
    rewrite H in X; vm_compute in X; discriminate X|].
  apply map_ext_in. intros sl Hsl. apply (C96_proposers tiny Phase0 Phase0); [reflexivity|exact tiny_lookahead|exact Hc|exact He| |vm_compute; reflexivity].
  repeat (destruct Hsl as [<-|Hsl]; [vm_compute; reflexivity|]). destruct Hsl.
Qed.
(** the bound is sharp: that block changes the committees of the epoch after those that are decided *)
Example C96_sharp : SpecFinality.chain tiny (Phase0, chain_one) (Phase0, chain_two)
  /\ epoch_of tiny chain_one + MIN_SEED_LOOKAHEAD tiny + 1 = 8 / SLOTS_PER_EPOCH tiny
  /\ map (fun sl => get_beacon_committee tiny chain_one sl 0) [8; 9; 10; 11] <> map (fun sl => get_beacon_committee tiny chain_two sl 0) [8; 9; 10; 11].
Proof.
  split; [apply rt_step; eapply chain_block; unfold chain_two; apply surjective_pairing|]. split; [vm_compute; reflexivity|]. vm_compute. discriminate.
Qed.

Print Assumptions C96_active_set.
Print Assumptions C96_committees.
Print Assumptions C96_committees_as_specified.
Print Assumptions C96_proposers.
Print Assumptions C96_networks.
