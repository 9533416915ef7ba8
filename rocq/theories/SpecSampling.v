(** * Specification for C92: selection odds follow the stake

    Proposers and sync-committee members are drawn by a lottery: in each round one candidate is drawn without regard to its
    stake and then accepted or passed over according to one random byte.  A validator holding [tickets] of the 256 byte values
    is accepted when the byte is one of the first [tickets]. *)
From Verif Require Import Base Types Ctx Env SpecCommon SpecShuffle SpecHelpers SpecEpoch.

(** the largest effective balance a validator can have under fork [f] *)
Definition stake_cap (E : Env) (f : Fork) : N :=
  match f with Electra => MAX_EFFECTIVE_BALANCE_ELECTRA E | _ => MAX_EFFECTIVE_BALANCE E end.
(** how many of the 256 byte values accept a validator whose effective balance is [stake] *)
Definition tickets (cap stake : N) : N := N.min 256 (stake * 255 / cap + 1).
(** [tickets] is proportional to the stake up to the granularity of one byte value, all of them at the cap *)
Lemma tickets_proportional cap stake : 0 < cap -> stake <= cap ->
  (tickets cap stake - 1) * cap <= 255 * stake < tickets cap stake * cap.
Proof.
  intros Hc Hs. unfold tickets. assert (Hq : stake * 255 / cap <= 255).
  { apply N.div_le_upper_bound; [lia|]. nia. }
  pose proof (N.div_mod' (stake * 255) cap) as Hd. pose proof (N.mod_lt (stake * 255) cap ltac:(lia)) as Hm.
  set (q := stake * 255 / cap) in *. set (m := (stake * 255) mod cap) in *. clearbody q m. rewrite N.min_r by lia. nia.
Qed.
Lemma tickets_full cap : 0 < cap -> tickets cap cap = 256.
Proof. intros Hc. unfold tickets. rewrite N.mul_comm, N.div_mul by lia. reflexivity. Qed.

(** [i] wins the first round that any candidate wins *)
Definition first_winner (E : Env) (cap : N) (s : BeaconState) (A : list N) (seed : bytes) (r i : N) : Prop :=
  proposer_candidate E A seed r = Some i /\ proposer_byte E seed r < tickets cap (effective_balance_of s i)
  /\ forall r' i', r' < r -> proposer_candidate E A seed r' = Some i' -> tickets cap (effective_balance_of s i') <= proposer_byte E seed r'.
Definition winners (E : Env) (cap : N) (s : BeaconState) (A : list N) (seed : bytes) (rounds : N) : list N :=
  flat_map (fun r => match proposer_candidate E A seed r with
                     | Some i => if proposer_byte E seed r <? tickets cap (effective_balance_of s i) then [i] else []
                     | None => []
                     end) (rangeN rounds).
(** [s'] is [s] with other effective balances *)
Definition only_stakes_differ (s s' : BeaconState) : Prop :=
  slot s' = slot s /\ randao_mixes s' = randao_mixes s
  /\ Forall2 (fun v w => v_public_key w = v_public_key v /\ v_activation_epoch w = v_activation_epoch v /\ v_exit_epoch w = v_exit_epoch v)
             (validators s) (validators s').
Definition stakes_between (lo hi : N) (s : BeaconState) : Prop :=
  Forall (fun v => lo <= v_effective_balance v <= hi) (validators s).
