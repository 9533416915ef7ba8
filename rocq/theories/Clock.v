(** * Clock: clock.rs, and the fork schedule of state_transition/context.rs

    Times and durations are numbers of nanoseconds, as in the code ([u128] readings, [Duration::from_nanos]). *)
From Verif Require Export Env.

(** ** 128-bit arithmetic and the conversion to 64 bits *)
Definition U128 : N := 340282366920938463463374607431768211456.
Definition add128 (chk : bool) (x y : N) : res N := if x + y <? U128 then Ok (x + y) else if chk then Panic else Ok ((x + y) mod U128).
Definition sub128 (chk : bool) (x y : N) : res N := if y <=? x then Ok (x - y) else if chk then Panic else Ok ((x + U128) - y).
Definition mul128 (chk : bool) (x y : N) : res N := if x * y <? U128 then Ok (x * y) else if chk then Panic else Ok ((x * y) mod U128).
(** 31-34 *)
Definition u128_to_u64 (t : N) : res N := if t <? U64 then Ok t else Panic.

(** [Duration::from_secs(s).as_nanos()] and [Duration::from_nanos(n).as_secs()] *)
Definition NANOS : N := 1000000000.
Definition secs_as_nanos (s : N) : N := s * NANOS.
Definition nanos_as_secs (n : N) : N := n / NANOS.

(** 27-29 *)
Definition slot_to_nanos (chk : bool) (slot seconds_per_slot genesis_time : N) : res N :=
  let! p := mul128 chk slot seconds_per_slot in add128 chk p genesis_time.
(** 38-45 *)
Definition convert_timestamp_to_slot (timestamp genesis_time seconds_per_slot : N) : res (option N) :=
  match csub timestamp genesis_time with
  | None => Ok None
  | Some delta => let! q := udiv delta seconds_per_slot in Ok (Some q)
  end.
(** 49-56 *)
Definition convert_timestamp_nanos_to_slot (timestamp genesis_time seconds_per_slot : N) : res (option N) :=
  match csub timestamp genesis_time with
  | None => Ok None
  | Some delta => let! q := udiv delta seconds_per_slot in let! r := u128_to_u64 q in Ok (Some r)
  end.
(** 59-62 *)
Definition convert_slot_to_timestamp (chk : bool) (slot seconds_per_slot genesis_time : N) : res N :=
  let! sps := u128_to_u64 seconds_per_slot in
  let! slot_in_seconds := umul chk slot (nanos_as_secs sps) in
  let! g := u128_to_u64 genesis_time in
  uadd chk slot_in_seconds (nanos_as_secs g).

(** 93-98 without the time provider: every reading of the clock is an argument below *)
Record Clock : Type := mkClock { ck_genesis_time : N; ck_seconds_per_slot : N; ck_slots_per_epoch : N }.
(** 138-148 *)
Definition clock_new (genesis_time seconds_per_slot slots_per_epoch : N) : Clock :=
  mkClock (secs_as_nanos genesis_time) (secs_as_nanos seconds_per_slot) slots_per_epoch.
(** 154-161 *)
Definition before_genesis (c : Clock) (now : N) : bool := now <? ck_genesis_time c.
(** 164-171: [current_slot] reads the time and calls [slot_at_time] *)
Definition slot_at_time (c : Clock) (now : N) : res (option N) :=
  convert_timestamp_nanos_to_slot now (ck_genesis_time c) (ck_seconds_per_slot c).
(** 174-176 *)
Definition timestamp_at_slot (chk : bool) (c : Clock) (slot : N) : res N :=
  convert_slot_to_timestamp chk slot (ck_seconds_per_slot c) (ck_genesis_time c).
(** 185-187 *)
Definition epoch_for (c : Clock) (slot : N) : res N := udiv slot (ck_slots_per_epoch c).
(** 179-182 *)
Definition current_epoch (c : Clock) (now : N) : res (option N) :=
  let! o := slot_at_time c now in
  match o with None => Ok None | Some sl => let! e := epoch_for c sl in Ok (Some e) end.
(** 191-198 *)
Definition duration_until_slot (chk : bool) (c : Clock) (slot now : N) : res N :=
  let! target := slot_to_nanos chk slot (ck_seconds_per_slot c) (ck_genesis_time c) in
  match csub target now with None => Ok 0 | Some t => u128_to_u64 t end.
(** 202-214 *)
Definition duration_until_next_slot (chk : bool) (c : Clock) (now : N) : res N :=
  if before_genesis c now then
    let! d := sub128 chk (ck_genesis_time c) now in u128_to_u64 d
  else
    let! o := slot_at_time c now in
    let! current := expect o in
    let! next := uadd chk current 1 in
    let! target := slot_to_nanos chk next (ck_seconds_per_slot c) (ck_genesis_time c) in
    let! d := sub128 chk target now in u128_to_u64 d.

(** ** The slot stream, 230-267.  [tokio::time::sleep(d)] started when the clock read [t] is ready from time [t + d] on; simplification:
    the timer and the time provider follow the same time.  A poll happens at time [pl_now]; when it re-arms the timer and then asks for the
    current slot, the clock is read at [pl_arm] and again at [pl_read]. *)
Record SlotStream : Type := mkStream { ss_deadline : N; ss_first : option N }.
Record Poll : Type := mkPoll { pl_now : N; pl_arm : N; pl_read : N }.
Inductive polled : Type := Pending | Ready (slot : option N). (* [Poll<Option<Slot>>] *)
(** 242-246; [pl_now] is not used *)
Definition into_stream (chk : bool) (c : Clock) (p : Poll) : res SlotStream :=
  let! d := duration_until_next_slot chk c (pl_arm p) in
  let! first := slot_at_time c (pl_read p) in
  Ok (mkStream (pl_arm p + d) first).
(** 253-266 *)
Definition poll_next (chk : bool) (c : Clock) (p : Poll) (st : SlotStream) : res (polled * SlotStream) :=
  match ss_first st with
  | Some sl => Ok (Ready (Some sl), mkStream (ss_deadline st) None)
  | None =>
    if ss_deadline st <=? pl_now p then
      let! d := duration_until_next_slot chk c (pl_arm p) in
      let! sl := slot_at_time c (pl_read p) in
      Ok (Ready sl, mkStream (pl_arm p + d) None)
    else Ok (Pending, st)
  end.
(** what a consumer sees: the items of the polls, [None] being the end of the stream *)
Fixpoint poll_all (chk : bool) (c : Clock) (ps : list Poll) (st : SlotStream) : res (list (option N)) :=
  match ps with
  | [] => Ok []
  | p :: t =>
    let! r := poll_next chk c p st in
    let! rest := poll_all chk c t (snd r) in
    Ok (match fst r with Pending => rest | Ready o => o :: rest end)
  end.

(** ** Fork schedule *)
Section WithCtx.
Variable C : Ctx.
(** context.rs:444-459 *)
Definition fork_for (slot : N) : res Fork :=
  let! epoch := udiv slot (SLOTS_PER_EPOCH C) in
  Ok (if ELECTRA_FORK_EPOCH C <=? epoch then Electra
      else if DENEB_FORK_EPOCH C <=? epoch then Deneb
      else if CAPELLA_FORK_EPOCH C <=? epoch then Capella
      else if BELLATRIX_FORK_EPOCH C <=? epoch then Bellatrix
      else if ALTAIR_FORK_EPOCH C <=? epoch then Altair
      else Phase0).
(** context.rs:461-470 *)
Definition fork_version_for (f : Fork) : bytes :=
  match f with
  | Phase0 => GENESIS_FORK_VERSION C
  | Altair => ALTAIR_FORK_VERSION C
  | Bellatrix => BELLATRIX_FORK_VERSION C
  | Capella => CAPELLA_FORK_VERSION C
  | Deneb => DENEB_FORK_VERSION C
  | Electra => ELECTRA_FORK_VERSION C
  end.
End WithCtx.
