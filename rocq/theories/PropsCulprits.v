(** * C120: the record of slashed stake is, epoch by epoch, the stake of the validators slashed on the chain *)
From Coq Require Import Permutation.
From Verif Require Import Base BaseLemmas Types Ctx Env Helpers HelpersAltair HelpersElectra Block Epoch Transition Upgrade StLemmas
  SpecCommon SpecShuffle SpecHelpers SpecElectra SpecOps SpecBlock SpecEpoch SpecFlow SpecAtt SpecQueues SpecFinality SpecSafety SpecAuthority SpecPayload SpecCulprits
  HelperProofs HelperProofs2 SlotProofs BlockProofs AuthorityProofs PayloadProofs CulpritProofs
  Toy Toy2 Toy3 PropsOps PropsInvariants PropsBlock PropsFlow PropsEpoch PropsAuthority PropsEntry PropsPayload.

(** a block that does not make the code panic, accepted or not, adds the stake of the validators it slashes to the entry of the current epoch, and changes no other *)
Theorem C120_block (E : Env) f s b r t : ctx_sane E -> chk E = true -> process_block E f b s = (r, t) -> r <> Panic ->
  (forall e, e mod EPOCHS_PER_SLASHINGS_VECTOR E <> epoch_of E s mod EPOCHS_PER_SLASHINGS_VECTOR E -> slashed_entry E t e = slashed_entry E s e)
  /\ (forall x, slashed_entry E s (epoch_of E s) = Some x -> slashed_entry E t (epoch_of E s) = Some (x + newly (validators s) (validators t)))
  /\ lenN (slashings t) = lenN (slashings s).
Proof.
  intros Hc Hk H Hr. pose proof (sk_block E f Hc Hk b s) as K. rewrite H in K. cbn [fst snd] in K. destruct (K Hr) as [K1 K2 K3]. unfold slashed_entry. rewrite K2. unfold credit.
  split; [|split].
  - intros e He. destruct (nthN (slashings s) (epoch_of E s mod _)); [|reflexivity]. apply nthN_updN_ne. auto.
  - intros x Hx. rewrite Hx. apply nthN_updN_eq. eapply nthN_some; exact Hx.
  - destruct (nthN (slashings s) (epoch_of E s mod _)); [apply lenN_updN|reflexivity].
Qed.

Lemma no_entry_yet E e w : (forall f s, In (f, s) w -> epoch_of E s < e) -> slashed_in E e w = 0.
Proof.
  induction w as [|q w IH]; intros H; [reflexivity|]. destruct w as [|p w]; [reflexivity|]. change (slashed_in E e (q :: p :: w)) with ((if epoch_of E (snd p) =? e then newly (validators (snd p)) (validators (snd q)) else 0) + slashed_in E e (p :: w)).
  rewrite IH by (intros f s Hi; apply (H f s); right; exact Hi). specialize (H (fst p) (snd p) ltac:(right; left; apply surjective_pairing)). destruct (N.eqb_spec (epoch_of E (snd p)) e); lia.
Qed.
Lemma mod_apart V e c : e < c -> c < e + V -> c mod V <> e mod V.
Proof.
  intros H1 H2 Hm. assert (V <> 0) by lia. pose proof (N.div_mod c V ltac:(assumption)) as D1. pose proof (N.div_mod e V ltac:(assumption)) as D2. rewrite Hm in D1.
  assert (X : c - e = V * (c / V - e / V)). { rewrite N.mul_sub_distr_l. lia. } destruct (N.eq_dec (c / V - e / V) 0) as [X0|X0]; [rewrite X0, N.mul_0_r in X; lia|].
  assert (V * 1 <= V * (c / V - e / V)) by (apply N.mul_le_mono_l; lia). lia.
Qed.
(** C120: on any chain, for every epoch still on record, the entry is the stake of the validators that became slashed on the chain in that epoch, added to what was recorded when
    the chain started if that was in the same epoch or later *)
Theorem C120_record (E : Env) p0 z w e : ctx_sane E -> chk E = true -> lenN (slashings (snd p0)) = EPOCHS_PER_SLASHINGS_VECTOR E -> calm E p0 (z :: w) ->
  e <= epoch_of E (snd z) -> epoch_of E (snd z) < e + EPOCHS_PER_SLASHINGS_VECTOR E ->
  exists old, (if e <=? epoch_of E (snd p0) then slashed_entry E (snd p0) e = Some old else old = 0) /\ slashed_entry E (snd z) e = Some (old + slashed_in E e (z :: w)).
Proof.
  intros Hc Hk Hl Hw He Hz. set (V := EPOCHS_PER_SLASHINGS_VECTOR E) in *. assert (HV : V <> 0) by (unfold V; ctxs Hc; lia). assert (Hp : SLOTS_PER_EPOCH E <> 0) by (ctxs Hc; lia).
  enough (G : lenN (slashings (snd z)) = V /\ epoch_of E (snd p0) <= epoch_of E (snd z) /\ (forall f s, In (f, s) (z :: w) -> epoch_of E s <= epoch_of E (snd z))
    /\ forall e, e <= epoch_of E (snd z) -> epoch_of E (snd z) < e + V -> exists old, (if e <=? epoch_of E (snd p0) then slashed_entry E (snd p0) e = Some old else old = 0) /\ slashed_entry E (snd z) e = Some (old + slashed_in E e (z :: w)))
    by (apply G; assumption).
  clear e He Hz. remember (z :: w) as l0 eqn:El. revert z w El.
  assert (Same : forall f g s t l, pk s t -> lenN (slashings s) = V -> epoch_of E (snd p0) <= epoch_of E s -> (forall f' s', In (f', s') ((f, s) :: l) -> epoch_of E s' <= epoch_of E s) ->
    (forall e, e <= epoch_of E s -> epoch_of E s < e + V -> exists old, (if e <=? epoch_of E (snd p0) then slashed_entry E (snd p0) e = Some old else old = 0) /\ slashed_entry E s e = Some (old + slashed_in E e ((f, s) :: l))) ->
    lenN (slashings t) = V /\ epoch_of E (snd p0) <= epoch_of E t /\ (forall f' s', In (f', s') ((g, t) :: (f, s) :: l) -> epoch_of E s' <= epoch_of E t)
    /\ forall e, e <= epoch_of E t -> epoch_of E t < e + V -> exists old, (if e <=? epoch_of E (snd p0) then slashed_entry E (snd p0) e = Some old else old = 0) /\ slashed_entry E t e = Some (old + slashed_in E e ((g, t) :: (f, s) :: l))).
  { intros f g s t l [P1 P2 P3] N1 N2 N3 N4. assert (Ee : epoch_of E t = epoch_of E s) by (unfold epoch_of; rewrite P3; reflexivity). rewrite P2, Ee. split; [exact N1|]. split; [exact N2|]. split; [intros f' s' [[= <- <-]|Hi]; [lia|apply (N3 f' s' Hi)]|].
    intros e He Hz. destruct (N4 e He Hz) as (old & O1 & O2). exists old. split; [exact O1|]. unfold slashed_entry in *. rewrite P2, O2. cbn [slashed_in fst snd]. rewrite (newly_flags _ _ P1). destruct (_ =? e); reflexivity. }
  induction Hw as [|f s t l Hw IH Hb H|f b s r t l Hw IH H Hr|f g s t l Hw IH H Hne]; intros z w [= <- <-]; cbn [snd] in *.
  - split; [exact Hl|]. split; [lia|]. split; [intros f s [->|[]]; cbn [snd]; lia|]. intros e He Hz. destruct (N.leb_spec e (epoch_of E (snd p0))); [|lia].
    destruct (nthN_lt (slashings (snd p0)) (e mod V)) as [x Hx]; [rewrite Hl; apply N.mod_lt; exact HV|]. exists x. unfold slashed_entry. fold V. rewrite Hx. split; [reflexivity|]. cbn [slashed_in]. f_equal. lia.
  - destruct (IH (f, s) l eq_refl) as (N1 & N2 & N3 & N4). clear IH. cbn [snd] in *. destruct (slashed_slot E f s t Hc Hk Hb H) as (S1 & S2 & S3). destruct (N.eqb_spec ((slot s + 1) mod SLOTS_PER_EPOCH E) 0) as [Hm|Hm].
    + pose proof (epoch_succ E s t Hc S1 Hm) as Ee. rewrite S3, lenN_updN, Ee. fold V. split; [exact N1|]. split; [lia|]. split; [intros f' s' [[= <- <-]|Hi]; [lia|specialize (N3 f' s' Hi); lia]|].
      intros e He Hz. assert (Sl : slashed_in E e ((f, t) :: (f, s) :: l) = slashed_in E e ((f, s) :: l)).
      { cbn [slashed_in snd]. rewrite (newly_flags _ _ S2). destruct (_ =? e); reflexivity. }
      rewrite Sl. unfold slashed_entry. fold V. rewrite S3. fold V. destruct (N.eq_dec e (epoch_of E s + 1)) as [->|Hn].
      * exists 0. destruct (N.leb_spec (epoch_of E s + 1) (epoch_of E (snd p0))); [lia|]. split; [reflexivity|]. rewrite nthN_updN_eq by (rewrite N1; apply N.mod_lt; exact HV).
        rewrite no_entry_yet; [reflexivity|]. intros f' s' Hi. specialize (N3 f' s' Hi). lia.
      * destruct (N4 e ltac:(lia) ltac:(lia)) as (old & O1 & O2). exists old. split; [exact O1|]. rewrite nthN_updN_ne by (apply mod_apart; lia). exact O2.
    + assert (Ee : epoch_of E t = epoch_of E s) by exact (epoch_same E s t Hc S1 Hm). rewrite S3, Ee. split; [exact N1|]. split; [exact N2|]. split; [intros f' s' [[= <- <-]|Hi]; [lia|apply (N3 f' s' Hi)]|].
      intros e He Hz. destruct (N4 e He Hz) as (old & O1 & O2). exists old. split; [exact O1|]. unfold slashed_entry in *. rewrite S3, O2. cbn [slashed_in fst snd]. rewrite (newly_flags _ _ S2). destruct (_ =? e); reflexivity.
  - destruct (IH (f, s) l eq_refl) as (N1 & N2 & N3 & N4). clear IH. cbn [snd] in *. destruct (C120_block E f s b r t Hc Hk H Hr) as (B1 & B2 & B3). fold V in B1.
    pose proof (sk_block E f Hc Hk b s) as K. rewrite H in K. destruct (K Hr) as [_ _ K3]. cbn [snd] in K3. assert (Ee : epoch_of E t = epoch_of E s) by (unfold epoch_of; rewrite K3; reflexivity).
    rewrite B3, Ee. split; [exact N1|]. split; [exact N2|]. split; [intros f' s' [[= <- <-]|Hi]; [lia|apply (N3 f' s' Hi)]|].
    intros e He Hz. destruct (N4 e He Hz) as (old & O1 & O2). exists old. split; [exact O1|].
    assert (Sl : slashed_in E e ((f, t) :: (f, s) :: l) = (if epoch_of E s =? e then newly (validators s) (validators t) else 0) + slashed_in E e ((f, s) :: l)) by reflexivity. rewrite Sl.
    destruct (N.eqb_spec (epoch_of E s) e) as [<-|Hn]; [rewrite (B2 _ O2); f_equal; lia|]. rewrite B1, O2 by (apply not_eq_sym, mod_apart; lia). f_equal.
  - destruct (IH (f, s) l eq_refl) as (N1 & N2 & N3 & N4). cbn [snd] in *. apply Same; auto. exact (slashed_upgrade E f g s t H Hne).
Qed.

Lemma calm_len (E : Env) p0 z w : ctx_sane E -> chk E = true -> calm E p0 (z :: w) -> lenN (slashings (snd z)) = lenN (slashings (snd p0)).
Proof.
  intros Hc Hk Hw. remember (z :: w) as l0 eqn:El. revert z w El. induction Hw as [|f s t l Hw IH Hb H|f b s r t l Hw IH H Hr|f g s t l Hw IH H Hne]; intros z w [= <- <-]; [reflexivity|..];
    cbn [snd]; rewrite <- (IH (f, s) l eq_refl); cbn [snd].
  - destruct (slashed_slot E f s t Hc Hk Hb H) as (_ & _ & ->). destruct (_ =? 0); [apply lenN_updN|reflexivity].
  - apply (C120_block E f s b r t Hc Hk H Hr).
  - rewrite (pk_l _ _ (slashed_upgrade E f g s t H Hne)). reflexivity.
Qed.
(** once a chain is longer than the record, the sum the correlation penalty is computed from is the stake slashed on the chain in the epochs on record *)
Theorem C120_total (E : Env) p0 z w : ctx_sane E -> chk E = true -> lenN (slashings (snd p0)) = EPOCHS_PER_SLASHINGS_VECTOR E -> calm E p0 (z :: w) ->
  epoch_of E (snd p0) + EPOCHS_PER_SLASHINGS_VECTOR E <= epoch_of E (snd z) ->
  sumN (slashings (snd z)) = sumN (map (fun k => slashed_in E (epoch_of E (snd z) - k) (z :: w)) (rangeN (EPOCHS_PER_SLASHINGS_VECTOR E))).
Proof.
  intros Hc Hk Hl Hw Hz. pose proof (calm_len E p0 z w Hc Hk Hw) as Hlz. rewrite Hl in Hlz. pose proof (fun e => C120_record E p0 z w e Hc Hk Hl Hw) as R. set (V := EPOCHS_PER_SLASHINGS_VECTOR E) in *. assert (HV : V <> 0) by (unfold V; ctxs Hc; lia).
  set (c := epoch_of E (snd z)) in *. set (L := slashings (snd z)) in *.
  assert (A : map (fun k => slashed_in E (c - k) (z :: w)) (rangeN V) = map (fun j => match nthN L j with Some x => x | None => 0 end) (map (fun k => (c - k) mod V) (rangeN V))).
  { rewrite map_map. apply map_ext_in. intros k Hi. apply In_rangeN in Hi. destruct (R (c - k) ltac:(lia) ltac:(lia)) as (old & O1 & O2). destruct (N.leb_spec (c - k) (epoch_of E (snd p0))); [lia|]. subst old.
    unfold slashed_entry in O2. fold V L in O2. rewrite O2. lia. }
  assert (B : L = map (fun j => match nthN L j with Some x => x | None => 0 end) (rangeN V)).
  { apply nthN_ext. intros j. rewrite nthN_map. destruct (N.lt_ge_cases j V) as [Hj|Hj].
    - rewrite nthN_rangeN by exact Hj. cbn [option_map]. destruct (nthN_lt L j) as [x Hx]; [lia|]. rewrite Hx. reflexivity.
    - rewrite (proj2 (nthN_none L j)) by lia. rewrite (proj2 (nthN_none (rangeN V) j)) by (rewrite lenN_rangeN; lia). reflexivity. }
  rewrite A. rewrite B at 1. apply sumN_perm. apply Permutation_map. symmetry. apply NoDup_Permutation_bis.
  - assert (ND : forall l, NoDup l -> (forall k, In k l -> k < V) -> NoDup (map (fun k => (c - k) mod V) l)).
    { induction l as [|k l IH]; intros Hn Hin; [constructor|]. inversion Hn as [|? ? X1 X2]; subst. cbn [map]. constructor; [|apply IH; [exact X2|intros j Hj; apply Hin; right; exact Hj]].
      intros X. apply in_map_iff in X as (j & Hj1 & Hj2). pose proof (Hin k (or_introl eq_refl)). pose proof (Hin j (or_intror Hj2)). destruct (N.lt_trichotomy j k) as [Q|[Q|Q]].
      - apply (mod_apart V (c - k) (c - j)); [lia|lia|exact Hj1].
      - subst j. contradiction.
      - apply (mod_apart V (c - j) (c - k)); [lia|lia|symmetry; exact Hj1]. }
    apply ND; [apply NoDup_rangeN|intros k Hi; apply In_rangeN; exact Hi].
  - rewrite map_length. lia.
  - intros j Hi. apply in_map_iff in Hi as (k & <- & Hi). apply In_rangeN. apply N.mod_lt. exact HV.
Qed.

(** one block slashes a validator: its stake of 32 ETH enters the record of the epoch *)
Definition guilty_after : BeaconState := snd (process_block tiny Capella (guilty_block Capella) slash_toy).
Example C120_example : calm tiny (Capella, slash_toy) [(Capella, guilty_after); (Capella, slash_toy)]
  /\ lenN (slashings slash_toy) = EPOCHS_PER_SLASHINGS_VECTOR tiny
  /\ slashed_entry tiny slash_toy (epoch_of tiny slash_toy) = Some 0
  /\ slashed_in tiny (epoch_of tiny slash_toy) [(Capella, guilty_after); (Capella, slash_toy)] = 32000000000
  /\ slashed_entry tiny guilty_after (epoch_of tiny slash_toy) = Some 32000000000.
Proof.
  split; [eapply (calm_block _ _ _ (guilty_block Capella) _ (Ok tt)); [constructor| |discriminate]|vm_compute; auto].
  assert (H : fst (process_block tiny Capella (guilty_block Capella) slash_toy) = Ok tt) by (vm_compute; reflexivity). rewrite <- H. apply surjective_pairing.
Qed.

Print Assumptions C120_block.
Print Assumptions C120_record.
Print Assumptions C120_total.
