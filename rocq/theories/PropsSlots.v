(** * Property theorems: slot processing and recorded roots (C19, C20) *)
From Verif Require Import Base BaseLemmas Types Ctx Env Helpers HelpersAltair HelpersElectra Block Epoch Transition Upgrade StLemmas
  SpecCommon SpecShuffle SpecHelpers SpecElectra SpecOps SpecBlock SpecAtt SpecFinality SpecSlots HelperProofs HelperProofs2 AttProofs FinalityProofs SlotProofs
  Toy ToyCtx Toy2.

(** ** C19 *)
Theorem C19_not_backwards : forall (E : Env) (f : Fork) (s : BeaconState) (target : N),
  target <= slot s -> process_slots E f target s = (Err ETransitionToPreviousSlot, s).
Proof.
  intros E f s target H. unfold process_slots. rewrite (run_rd _ _ s (slot s)) by reflexivity. destruct (N.leb_spec target (slot s)); [reflexivity|lia].
Qed.
Theorem C19_reaches_target : forall (E : Env) (f : Fork) (s s' : BeaconState) (target : N),
  ctx_sane E -> target < 2 ^ 64 -> process_slots E f target s = (Ok tt, s') -> slot s' = target /\ slot s < target.
Proof. intros E f s s' target Hc Ht H. exact (process_slots_ok E Hc f target s s' Ht H). Qed.
(** the events of a successful run: per-slot processing once for every slot passed, epoch processing exactly once at the end
    of every epoch, in this order, each before the slot counter passes *)
Theorem C19_events : forall (E : Env) (f : Fork) (s s' : BeaconState) (target : N),
  ctx_sane E -> target < 2 ^ 64 -> process_slots E f target s = (Ok tt, s') -> slot_run E f s (expected_events E (slot s) target) s'.
Proof.
  intros E f s s' target Hc Ht H. pose proof (proj2 (process_slots_ok E Hc f target s s' Ht H)) as Hlt.
  rewrite process_slots_loop in H by assumption. apply loop_run with (n := N.to_nat (target - slot s)); try assumption. lia.
Qed.
(** and conversely: when these events can be executed one after the other, slot processing succeeds with their result *)
Theorem C19_events_suffice : forall (E : Env) (f : Fork) (s s' : BeaconState) (target : N),
  ctx_sane E -> slot s < target -> target < 2 ^ 64 -> slot_run E f s (expected_events E (slot s) target) s' -> process_slots E f target s = (Ok tt, s').
Proof. intros E f s s' target Hc Hlt Ht H. apply run_slots; assumption. Qed.
(** going to [b] is going to [a] and then to [b], whatever the outcome *)
Theorem C19_compose : forall (E : Env) (f : Fork) (s : BeaconState) (a b : N),
  ctx_sane E -> slot s < a -> a < b -> b < 2 ^ 64 ->
  process_slots E f b s
  = match process_slots E f a s with
    | (Ok _, s1) => process_slots E f b s1
    | (other, s1) => (other, s1)
    end.
Proof.
  intros E f s a b Hc H1 H2 Hb. rewrite (slots_compose E Hc f a b s H1 H2 Hb). unfold sbind. destruct (process_slots E f a s) as [r s1].
  destruct r as [[]| | |]; reflexivity.
Qed.
Example C19_ex :
  (let '(r, s') := process_slots tiny Phase0 9 (tiny_state 2 7) in (is_ok r, slot s')) = (true, 9)
  /\ expected_events tiny 7 9 = [EvSlot 7; EvEpoch 1; EvTick 8; EvSlot 8; EvTick 9].
Proof. split; vm_compute; reflexivity. Qed.

(** ** C20 *)
(** inside the window the stored root is returned, outside an error is (the failing subtraction in the error path aside, see below) *)
Theorem C20_window : forall (E : Env) (s : BeaconState) (sl : N),
  ctx_sane E -> state_shape E s -> slot_small s -> 0 < slot s ->
  (sl < slot s /\ slot s <= sl + SLOTS_PER_HISTORICAL_ROOT E -> exists r, recorded_root E s sl = Some r /\ get_block_root_at_slot E s sl = Ok r)
  /\ (~ (sl < slot s /\ slot s <= sl + SLOTS_PER_HISTORICAL_ROOT E) -> get_block_root_at_slot E s sl = Err ESlotOutOfRange).
Proof.
  intros E s sl Hc Hsh Hs Hp. split.
  - intros [H1 H2]. apply block_root_at; assumption.
  - intros H. apply root_outside; assumption.
Qed.
(** what is stored: the root recorded when slot [k] was left is returned by every later state that is at most
    [SLOTS_PER_HISTORICAL_ROOT] slots ahead, whatever blocks, slots and upgrades came in between *)
Theorem C20_recorded : forall (E : Env) (f g : Fork) (s1 s2 s3 : BeaconState) (sr br : Root),
  ctx_sane E -> state_shape E s1 -> slot_small s1 ->
  roots_of_slot E f s1 sr br -> process_slots E f (slot s1 + 1) s1 = (Ok tt, s2) -> chain E (f, s2) (g, s3) ->
  slot s3 <= slot s1 + SLOTS_PER_HISTORICAL_ROOT E ->
  slot s1 < slot s3 /\ get_block_root_at_slot E s3 (slot s1) = Ok br
  /\ nthN (state_roots s3) (slot s1 mod SLOTS_PER_HISTORICAL_ROOT E) = Some sr.
Proof. intros. eapply recorded_later; eassumption. Qed.
(** a successful run always finds the two roots *)
Theorem C20_roots_exist : forall (E : Env) (f : Fork) (s s' : BeaconState) (target : N),
  ctx_sane E -> process_slots E f target s = (Ok tt, s') -> exists sr br, roots_of_slot E f s sr br.
Proof. intros. eapply roots_exist; eassumption. Qed.
(** from slot 8 to 9 to 11; the root of slot 8 is then what the query for slot 8 returns, and slot 11 has none yet *)
Example C20_ex :
  let s1 := tiny_state 2 8 in
  let '(r2, s2) := process_slots tiny Phase0 9 s1 in
  let '(r3, s3) := process_slots tiny Phase0 11 s2 in
  match htr tiny (OState Phase0 s1) with
  | Some sr => match htr tiny (OHeader (completed_header (latest_block_header s1) sr)), get_block_root_at_slot tiny s3 8 with
               | Some br, Ok r => is_ok r2 && is_ok r3 && (slot s3 =? 11) && bytes_eqb r br && negb (is_ok (get_block_root_at_slot tiny s3 11))
               | _, _ => false
               end
  | None => false
  end = true.
Proof. vm_compute. reflexivity. Qed.
Example C20_ex_window : get_block_root_at_slot tiny (tiny_state 2 20) 4 = Ok (to_le 32 5) /\ get_block_root_at_slot tiny (tiny_state 2 20) 3 = Err ESlotOutOfRange.
Proof. vm_compute. auto. Qed.
(** at slot 0 the query does not return an error: building the error subtracts 1 from 0, which panics in checked builds *)
Theorem C20_genesis_refuted : exists (E : Env) (s : BeaconState) (sl : N),
  ctx_sane E /\ state_shape E s /\ slot_small s /\ slot s <= sl /\ get_block_root_at_slot E s sl = Panic.
Proof.
  exists tiny, (tiny_state 2 0), 0. split; [exact tiny_sane|]. split; [apply tiny_shape; lia|]. split; [vm_compute; reflexivity|].
  split; [vm_compute; discriminate|]. vm_compute. reflexivity.
Qed.

Print Assumptions C19_not_backwards.
Print Assumptions C19_reaches_target.
Print Assumptions C19_events.
Print Assumptions C19_events_suffice.
Print Assumptions C19_compose.
Print Assumptions C20_window.
Print Assumptions C20_recorded.
Print Assumptions C20_roots_exist.
Print Assumptions C20_genesis_refuted.
