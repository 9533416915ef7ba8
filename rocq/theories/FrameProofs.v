(** * Consequences of the write frame (proof file; no model definitions) *)
From Verif Require Import Base BaseLemmas Types Ctx Env Helpers HelpersAltair HelpersElectra Block Epoch Transition StLemmas Frame
  SpecCommon SpecRegistry HelperProofs HelperProofs2 Upgrade Genesis.
From Coq Require Import Relations.

Section WithEnv.
Variables (E : Env) (f : Fork).

(** ** Alignment and keys *)
Lemma vstep_key c v v' : vstep E f c v v' -> v_public_key v' = v_public_key v.
Proof. intros H; inversion H; subst; gs; reflexivity. Qed.

Lemma aligned_prim l s s' : prim E f l s s' -> registry_aligned f s -> registry_aligned f s'.
Proof.
  intros H. unfold registry_aligned.
  inversion H; subst; gs; rewrite ?lenN_updN; try (intros; assumption);
    try (match goal with Hl : lenN _ = lenN _ |- _ => rewrite Hl end; intros; assumption).
  - unfold register. intros [Hb Hr]. destruct (fork_le Altair f) eqn:Hf; gs; rewrite ?lenN_app, ?lenN_cons, ?lenN_nil;
      (split; [rewrite Hb; reflexivity|]); intros Hne; [destruct (Hr Hne) as (Ha1 & Ha2 & Ha3); rewrite Ha1, Ha2, Ha3; auto|].
    exfalso. destruct f; try discriminate. contradiction.
  - intros [Hb Hr]. split; [exact Hb|]. intros Hne. destruct (Hr Hne) as (Ha1 & Ha2 & Ha3). unfold repeatN, lenN in *.
    rewrite repeat_length. lia.
Qed.
Lemma position_none pk vs i : position_pk pk vs i = None -> ~ In pk (map v_public_key vs).
Proof.
  revert i; induction vs as [|v vs IH]; intros i H; cbn [position_pk map] in *; [intros []|].
  destruct (bytes_eqb (v_public_key v) pk) eqn:Hb; [discriminate|]. intros [Heq|Hin].
  - subst pk. assert (Ht : bytes_eqb (v_public_key v) (v_public_key v) = true) by (apply bytes_eqb_true; reflexivity). congruence.
  - eapply IH; eauto.
Qed.
Lemma NoDup_snoc {A} (l : list A) x : NoDup l -> ~ In x l -> NoDup (l ++ [x]).
Proof.
  induction l as [|y l IH]; intros Hnd Hx; cbn [app]; [constructor; [intros []|constructor]|].
  inversion Hnd; subst. constructor.
  - rewrite in_app_iff. intros [Hi|[->|[]]]; [contradiction|]. apply Hx. left; reflexivity.
  - apply IH; [assumption|]. intros Hi. apply Hx. right; exact Hi.
Qed.
Lemma register_validators v b s : validators (register f v b s) = validators s ++ [v].
Proof. unfold register. destruct (fork_le Altair f); gs; reflexivity. Qed.
Lemma keys_prim l s s' : prim E f l s s' -> unique_keys s -> unique_keys s'.
Proof.
  intros H. unfold unique_keys. inversion H; subst; gs; try (intros; assumption).
  - match goal with Hv : vstep _ _ _ _ _ |- _ => apply vstep_key in Hv; rewrite map_updN, Hv end.
    rewrite updN_id; [auto|]. rewrite nthN_map. match goal with Hn : nthN _ _ = Some _ |- _ => rewrite Hn end. reflexivity.
  - rewrite map_updN, updN_id; [auto|]. rewrite nthN_map. match goal with Hn : nthN _ _ = Some _ |- _ => rewrite Hn end. reflexivity.
  - intros Hnd. rewrite register_validators, map_app. cbn [map]. apply NoDup_snoc; [exact Hnd|].
    eapply position_none; eauto.
Qed.

(** ** Life cycle *)
Lemma later_record_refl v : later_record v v.
Proof. unfold later_record. repeat split; intros; try assumption; try reflexivity; lia. Qed.
Lemma later_record_trans a b c : later_record a b -> later_record b c -> later_record a c.
Proof.
  intros (A1 & A2 & A3 & A4 & A5) (B1 & B2 & B3 & B4 & B5). unfold later_record.
  split; [congruence|]. split; [auto|]. split; [|split].
  - intros H. rewrite B3; rewrite A3; auto.
  - intros H. rewrite B4; rewrite A4; auto.
  - intros H. destruct (A5 H) as [Ha Hw]. rewrite <- Ha in H. destruct (B5 H) as [Hb Hw']. split; [congruence|lia].
Qed.
Lemma vstep_record c v v' : vstep E f c v v' -> later_record v v'.
Proof.
  intros H. unfold later_record. inversion H; subst; gs; repeat split; intros; try reflexivity; try assumption; try contradiction; lia.
Qed.
Lemma later_credentials_refl v : later_credentials v v. Proof. left. reflexivity. Qed.
Lemma kind_same v v' : v_withdrawal_credentials v' = v_withdrawal_credentials v -> credential_kind v' = credential_kind v.
Proof. unfold credential_kind. intros ->. reflexivity. Qed.
Lemma later_credentials_trans a b c : later_credentials a b -> later_credentials b c -> later_credentials a c.
Proof.
  unfold later_credentials. intros HA HB.
  destruct HA as [A|[(A1 & A2)|(A1 & A2 & A3)]].
  - pose proof (kind_same _ _ A) as Hk. rewrite A, Hk in HB. exact HB.
  - destruct HB as [B|[(B1 & B2)|(B1 & B2 & B3)]].
    + pose proof (kind_same _ _ B) as Hk. rewrite Hk. right; left. auto.
    + exfalso. destruct A2; congruence.
    + right; left. auto.
  - destruct HB as [B|[(B1 & B2)|(B1 & B2 & B3)]].
    + pose proof (kind_same _ _ B) as Hk. right; right. rewrite Hk, B. auto.
    + congruence.
    + congruence.
Qed.
Lemma cred_prefix_kind v k : cred_prefix v = k -> k <> 255 -> credential_kind v = Some k.
Proof.
  unfold cred_prefix, credential_kind. destruct (v_withdrawal_credentials v) as [|x l]; intros H1 H2; [cbn in H1; congruence|].
  cbn in H1. rewrite nthN_0. cbn. congruence.
Qed.
Lemma vstep_credentials c v v' : vstep E f c v v' -> later_credentials v v'.
Proof.
  intros H. inversion H; subst; try (left; gs; reflexivity).
  - right; left. split; [apply cred_prefix_kind; [assumption|discriminate]|]. left. unfold credential_kind. gs. reflexivity.
  - right; right. split; [apply cred_prefix_kind; [assumption|discriminate]|]. unfold credential_kind. gs. split; reflexivity.
Qed.
Lemma registry_later_refl s : registry_later s s.
Proof. intros i v H. exists v. split; [exact H|]. split; [apply later_record_refl|apply later_credentials_refl]. Qed.
Lemma registry_later_trans a b c : registry_later a b -> registry_later b c -> registry_later a c.
Proof.
  intros H1 H2 i v Hv. destruct (H1 i v Hv) as (v1 & Hv1 & R1 & C1). destruct (H2 i v1 Hv1) as (v2 & Hv2 & R2 & C2).
  exists v2. split; [exact Hv2|]. split; [eapply later_record_trans; eauto|eapply later_credentials_trans; eauto].
Qed.
Lemma registry_later_same s s' : validators s' = validators s -> registry_later s s'.
Proof. intros H i v Hv. exists v. rewrite H. split; [exact Hv|]. split; [apply later_record_refl|apply later_credentials_refl]. Qed.
Lemma later_prim l s s' : prim E f l s s' -> registry_later s s'.
Proof.
  intros H. inversion H; subst; try (apply registry_later_same; gs; reflexivity).
  - intros j w Hw. gs. rewrite nthN_updN. destruct ((j =? i) && (i <? lenN (validators s))) eqn:Hj.
    + apply andb_true_iff in Hj as [Hj _]. apply N.eqb_eq in Hj. subst j. assert (w = v) by congruence. subst w.
      exists v'. split; [reflexivity|]. split; [eapply vstep_record; eassumption|eapply vstep_credentials; eassumption].
    + exists w. split; [exact Hw|]. split; [apply later_record_refl|apply later_credentials_refl].
  - intros j w Hw. gs. rewrite nthN_updN. destruct ((j =? i) && (i <? lenN (validators s))) eqn:Hj.
    + apply andb_true_iff in Hj as [Hj _]. apply N.eqb_eq in Hj. subst j. assert (w = v) by congruence. subst w.
      eexists. split; [reflexivity|]. split; [|left; gs; reflexivity]. unfold later_record. gs. repeat split; intros; try assumption; lia.
    + exists w. split; [exact Hw|]. split; [apply later_record_refl|apply later_credentials_refl].
  - intros j w Hw. rewrite register_validators. exists w. rewrite nthN_app_l by (eapply nthN_some; eauto).
    split; [exact Hw|]. split; [apply later_record_refl|apply later_credentials_refl].
Qed.

(** ** Lifting to runs *)
Lemma evo_all_inv (P : BeaconState -> Prop) : (forall l s s', prim E f l s s' -> P s -> P s') ->
  forall s s', evo_all E f s s' -> P s -> P s'.
Proof. intros H s s' He. induction He as [a b [l Hp]|a|a b c H1 IH1 H2 IH2]; eauto. Qed.
Lemma evo_all_rel (R : BeaconState -> BeaconState -> Prop) : (forall s, R s s) -> (forall a b c, R a b -> R b c -> R a c) ->
  (forall l s s', prim E f l s s' -> R s s') -> forall s s', evo_all E f s s' -> R s s'.
Proof. intros Hr Ht H s s' He. induction He as [a b [l Hp]|a|a b c H1 IH1 H2 IH2]; eauto. Qed.
Lemma evo_rel l (R : BeaconState -> BeaconState -> Prop) : (forall s, R s s) -> (forall a b c, R a b -> R b c -> R a c) ->
  (forall s s', prim E f l s s' -> R s s') -> forall s s', evo E f l s s' -> R s s'.
Proof. intros Hr Ht H s s' He. induction He as [a b Hp|a|a b c H1 IH1 H2 IH2]; eauto. Qed.

(** ** What each layer leaves alone *)
Lemma frame_slot l s s' : evo E f l s s' -> l <> LSlot -> slot s' = slot s.
Proof.
  intros H Hl. revert s s' H. apply evo_rel; [reflexivity|congruence|]. intros s s' H.
  inversion H; subst; gs; try reflexivity; try contradiction. unfold register. destruct (fork_le Altair f); gs; reflexivity.
Qed.
Lemma frame_identity s s' : evo_all E f s s' ->
  genesis_time s' = genesis_time s /\ genesis_validators_root s' = genesis_validators_root s /\ fork s' = fork s.
Proof.
  revert s s'. apply evo_all_rel.
  - intros s; repeat split; reflexivity.
  - intros a b c (?&?&?) (?&?&?); repeat split; congruence.
  - intros l s s' H. inversion H; subst; gs; try (repeat split; reflexivity). unfold register. destruct (fork_le Altair f); gs; repeat split; reflexivity.
Qed.
Lemma frame_history l s s' : evo E f l s s' ->
  exists rs hs, historical_roots s' = historical_roots s ++ rs /\ historical_summaries s' = historical_summaries s ++ hs
    /\ ((forall b, l <> LEpoch b) -> rs = [] /\ hs = []).
Proof.
  revert s s'. apply evo_rel.
  - intros s. exists [], []. rewrite !app_nil_r. auto.
  - intros a b c (r1 & h1 & A1 & A2 & A3) (r2 & h2 & B1 & B2 & B3). exists (r1 ++ r2), (h1 ++ h2).
    rewrite B1, B2, A1, A2, !app_assoc. split; [reflexivity|]. split; [reflexivity|]. intros Hl.
    destruct (A3 Hl) as [-> ->], (B3 Hl) as [-> ->]. auto.
  - intros s s' H. inversion H; subst; gs;
      try (exists [], []; rewrite !app_nil_r; split; [reflexivity|]; split; [reflexivity|]; auto; fail).
    + exists [], []. rewrite !app_nil_r. unfold register. destruct (fork_le Altair f); gs; auto.
    + exists [r], []. rewrite !app_nil_r. split; [reflexivity|]. split; [reflexivity|]. intros Hc; exfalso; eapply Hc; reflexivity.
    + exists [], [h]. rewrite !app_nil_r. split; [reflexivity|]. split; [reflexivity|]. intros Hc; exfalso; eapply Hc; reflexivity.
Qed.
Lemma frame_shape s s' : evo_all E f s s' ->
  lenN (block_roots s') = lenN (block_roots s) /\ lenN (state_roots s') = lenN (state_roots s)
  /\ lenN (randao_mixes s') = lenN (randao_mixes s) /\ lenN (slashings s') = lenN (slashings s)
  /\ (lenN (justification_bits s) = 4 -> lenN (justification_bits s') = 4)
  /\ lenN (validators s) <= lenN (validators s').
Proof.
  revert s s'. apply evo_all_rel.
  - intros s. repeat split; auto; lia.
  - intros a b c (A1&A2&A3&A4&A5&A6) (B1&B2&B3&B4&B5&B6). repeat split; try congruence; auto; lia.
  - intros l s s' H. inversion H; subst; gs; rewrite ?lenN_updN; try (repeat split; auto; lia).
    rewrite register_validators, lenN_app. unfold register. destruct (fork_le Altair f); gs; repeat split; auto; lia.
Qed.
(** blocks do not touch the finality gadget *)
Lemma frame_finality l s s' : evo E f l s s' -> l <> LEpoch true ->
  justification_bits s' = justification_bits s /\ previous_justified_checkpoint s' = previous_justified_checkpoint s
  /\ current_justified_checkpoint s' = current_justified_checkpoint s /\ finalized_checkpoint s' = finalized_checkpoint s.
Proof.
  intros H Hl. revert s s' H. apply evo_rel.
  - intros s; repeat split; reflexivity.
  - intros a b c (?&?&?&?) (?&?&?&?); repeat split; congruence.
  - intros s s' H. inversion H; subst; gs; try (repeat split; reflexivity); try contradiction.
    unfold register. destruct (fork_le Altair f); gs; repeat split; reflexivity.
Qed.

Lemma round_mult_gen c b m : 1 <= c -> m mod c = 0 -> N.min (b - b mod c) m mod c = 0.
Proof.
  intros Hc Hm. destruct (N.min_spec (b - b mod c) m) as [[_ ->]|[_ ->]]; [|exact Hm]. clear Hm.
  assert (Hd : b = c * (b / c) + b mod c) by (apply N.div_mod'; lia).
  replace (b - b mod c) with (c * (b / c)) by (rewrite Hd at 2; rewrite N.add_sub; reflexivity).
  rewrite N.mul_comm. apply N.mod_mul. lia.
Qed.
(** ** Effective balances stay multiples of the increment and below the cap *)
Definition effective_ok (v : Validator) : Prop :=
  v_effective_balance v mod EFFECTIVE_BALANCE_INCREMENT E = 0
  /\ v_effective_balance v <= N.max (MAX_EFFECTIVE_BALANCE E) (if Fork_eq_dec f Electra then MAX_EFFECTIVE_BALANCE_ELECTRA E else 0).
Hypothesis Hinc : 1 <= EFFECTIVE_BALANCE_INCREMENT E.
Hypothesis Hm1 : MAX_EFFECTIVE_BALANCE E mod EFFECTIVE_BALANCE_INCREMENT E = 0.
Hypothesis Hm2 : MAX_EFFECTIVE_BALANCE_ELECTRA E mod EFFECTIVE_BALANCE_INCREMENT E = 0.
Hypothesis Hm3 : MIN_ACTIVATION_BALANCE E mod EFFECTIVE_BALANCE_INCREMENT E = 0.
Hypothesis Hm4 : MIN_ACTIVATION_BALANCE E <= MAX_EFFECTIVE_BALANCE E.
Lemma round_mult b m : m mod EFFECTIVE_BALANCE_INCREMENT E = 0 ->
  N.min (b - b mod EFFECTIVE_BALANCE_INCREMENT E) m mod EFFECTIVE_BALANCE_INCREMENT E = 0.
Proof. apply round_mult_gen. exact Hinc. Qed.
Lemma limit_mult v : effective_balance_limit E f v mod EFFECTIVE_BALANCE_INCREMENT E = 0.
Proof. unfold effective_balance_limit, get_validator_max_effective_balance. destruct f; try exact Hm1. destruct (has_compounding_withdrawal_credential v); [exact Hm2|exact Hm3]. Qed.
Lemma limit_le v : effective_balance_limit E f v <= N.max (MAX_EFFECTIVE_BALANCE E) (if Fork_eq_dec f Electra then MAX_EFFECTIVE_BALANCE_ELECTRA E else 0).
Proof.
  unfold effective_balance_limit, get_validator_max_effective_balance. destruct f; try apply N.le_max_l.
  destruct (Fork_eq_dec Electra Electra); [|contradiction]. destruct (has_compounding_withdrawal_credential v); [apply N.le_max_r|].
  eapply N.le_trans; [exact Hm4|apply N.le_max_l].
Qed.
Lemma effective_prim l s s' : prim E f l s s' -> Forall effective_ok (validators s) -> Forall effective_ok (validators s').
Proof.
  intros H HF. rewrite Forall_forall in *. inversion H; subst; gs; try exact HF.
  - intros w Hw. apply In_updN in Hw as [->|Hw]; [|apply HF; exact Hw].
    assert (Hv : effective_ok v) by (apply HF; eapply nthN_In; eauto). unfold effective_ok in *.
    match goal with Hs : vstep _ _ _ _ _ |- _ => inversion Hs; subst; gs; exact Hv end.
  - intros w Hw. apply In_updN in Hw as [->|Hw]; [|apply HF; exact Hw]. unfold effective_ok. gs.
    split; [apply round_mult, limit_mult|]. eapply N.le_trans; [apply N.le_min_r|apply limit_le].
  - rewrite register_validators. intros w Hw. apply in_app_iff in Hw as [Hw|[<-|[]]]; [apply HF; exact Hw|].
    match goal with Hn : new_validator _ _ |- _ => destruct Hn as (_ & _ & _ & _ & _ & bb & Hb) end.
    unfold effective_ok. rewrite Hb. split; [apply round_mult, Hm1|]. eapply N.le_trans; [apply N.le_min_r|apply N.le_max_l].
Qed.
End WithEnv.
