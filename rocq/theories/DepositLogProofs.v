(** * The deposits credited along a chain (proof file; no model definitions) *)
From Verif Require Import Base BaseLemmas Types Ctx Env Helpers HelpersAltair HelpersElectra Block Epoch Transition Upgrade StLemmas
  SpecCommon SpecFlow SpecFinality SpecTrees SpecDepositLog
  Frame HelperProofs HelperProofs2 BlockProofs SlotProofs FlowProofs CrashProofs DepositProofs PropsFlow Trees PropsTrees BlobProofs AuthorityProofs.
From Coq Require Import Relations.

Lemma nth_error_firstn' {A} : forall n (l : list A) i, nth_error (firstn n l) i = if Nat.ltb i n then nth_error l i else None.
Proof.
  induction n as [|n IH]; intros l i; [destruct l; destruct i; reflexivity|]. destruct l as [|x l]; [cbn; destruct i; cbn; [reflexivity|match goal with |- context [if ?c then _ else _] => destruct c end; reflexivity]|].
  destruct i as [|i]; [reflexivity|]. cbn [firstn nth_error]. rewrite IH. reflexivity.
Qed.
Lemma nth_error_skipn' {A} : forall n (l : list A) i, nth_error (skipn n l) i = nth_error l (n + i).
Proof. induction n as [|n IH]; intros l i; [reflexivity|]. destruct l as [|x l]; [destruct i; reflexivity|]. cbn. apply IH. Qed.
Lemma nthN_firstN {A} n (l : list A) i : nthN (firstN n l) i = if i <? n then nthN l i else None.
Proof.
  unfold firstN. rewrite !nthN_nth_error, nth_error_firstn'. destruct (N.ltb_spec i n) as [H|H].
  - replace (Nat.ltb (N.to_nat i) (N.to_nat n)) with true by (symmetry; apply Nat.ltb_lt; lia). reflexivity.
  - replace (Nat.ltb (N.to_nat i) (N.to_nat n)) with false by (symmetry; apply Nat.ltb_ge; lia). reflexivity.
Qed.
Lemma nthN_skipN {A} n (l : list A) i : nthN (skipN n l) i = nthN l (n + i).
Proof. unfold skipN. rewrite !nthN_nth_error, nth_error_skipn'. f_equal. lia. Qed.
Lemma all_or (P : N -> Prop) (B : Prop) n : (forall k, k < n -> P k \/ B) -> (forall k, k < n -> P k) \/ B.
Proof.
  revert n. apply (N.peano_ind (fun n => (forall k, k < n -> P k \/ B) -> (forall k, k < n -> P k) \/ B)); [left; intros; lia|].
  intros n IH H. destruct IH as [G|G]; [intros k Hk; apply H; lia| |right; exact G]. destruct (H n ltac:(lia)) as [K|K]; [left|right; exact K].
  intros k Hk. destruct (N.eq_dec k n) as [->|Hne]; [exact K|]. apply G. lia.
Qed.

(** ** One proof against the contract's tree *)
Lemma list_tree_32 l : list_tree (2 ^ 32) l = Node (balanced 32 l) (Leaf (to_le 32 (lenN l))).
Proof. unfold list_tree. replace (N.to_nat (N.log2_up (2 ^ 32))) with 32%nat by (vm_compute; reflexivity). reflexivity. Qed.
Lemma list_below d l i x : i < 2 ^ N.of_nat d -> below (Node (balanced d l) x) (S d) i = Some (match nthN l i with Some u => u | None => Leaf zero32 end).
Proof.
  intros Hi. cbn [below]. replace (N.testbit i (N.of_nat d)) with false; [apply below_balanced; exact Hi|].
  symmetry. rewrite N.testbit_odd, N.shiftr_div_pow2, N.div_small by exact Hi. reflexivity.
Qed.
Lemma proven_leaf_at (E : Env) dd log n leaves i d br leaf : (forall b, lenN (hash E b) = 32) -> branch_check E -> (forall d r, htr E (ODepositData d) = Some r -> lenN r = 32) ->
  map Some leaves = map (fun d => htr E (ODepositData d)) (firstN n log) ->
  i < 2 ^ N.of_nat dd -> htr E (ODepositData d) = Some leaf ->
  merkle_branch_ok E leaf br (N.of_nat (S dd)) i (root_of (hash E) (Node (balanced dd (map Leaf leaves)) (Leaf (to_le 32 (lenN (map Leaf leaves)))))) = true ->
  option_map (fun x => htr E (ODepositData x)) (nthN log i) = Some (Some leaf) \/ hash_broken E.
Proof.
  intros Hw Hm H32 Hl Hi Hd H. apply Hm in H as (L & B & Ll & R). pose proof (list_below dd (map Leaf leaves) i (Leaf (to_le 32 (lenN (map Leaf leaves)))) Hi) as Hb.
  assert (W : chunks_wf (Node (balanced dd (map Leaf leaves)) (Leaf (to_le 32 (lenN (map Leaf leaves)))))).
  { assert (F : Forall chunks_wf (map Leaf leaves)).
    { apply Forall_forall. intros x Hx. apply in_map_iff in Hx as (r & <- & Hx). cbn. assert (Hy : In (@Some Root r) (map (@Some Root) leaves)) by (apply in_map; exact Hx). rewrite Hl in Hy.
      apply in_map_iff in Hy as (y & Hy & _). exact (H32 _ _ Hy). }
    split; [apply balanced_wf; exact F|]. reflexivity. }
  revert L R Hb W. generalize (Node (balanced dd (map Leaf leaves)) (Leaf (to_le 32 (lenN (map Leaf leaves))))). intros t L R Hb W.
  set (u := match nthN (map Leaf leaves) i with Some u => u | None => Leaf zero32 end) in *. pose proof (below_wf _ _ _ _ W Hb) as Wu.
  destruct (bytes_eqb leaf (root_of (hash E) u)) eqn:Heq.
  - apply bytes_eqb_iff in Heq. unfold u in Heq. rewrite nthN_map in Heq. change (@nthN bytes leaves i) with (@nthN Root leaves i) in Heq.
    destruct (@nthN Root leaves i) as [r|] eqn:Hx; cbn [option_map root_of] in Heq.
    + left. subst r. assert (Hy : nthN (map Some leaves) i = Some (Some leaf)) by (rewrite nthN_map, Hx; reflexivity). rewrite Hl, nthN_map, nthN_firstN in Hy.
      destruct (i <? n); [exact Hy|discriminate].
    + right. right. exists d. rewrite Hd, Heq. reflexivity.
  - right. left. apply (branch_collision (hash E) Hw br (siblings (hash E) t (S dd) i) leaf (root_of (hash E) u) i); try assumption.
    + rewrite (siblings_len _ _ _ _ _ Hb). exact L.
    + apply root_len; assumption.
    + apply siblings_wf; assumption.
    + intros X. apply bytes_eqb_iff in X. congruence.
    + rewrite R. symmetry. apply honest_branch. exact Hb.
Qed.
Lemma proven_leaf (E : Env) log e i d br leaf : (forall b, lenN (hash E b) = 32) -> branch_check E -> (forall d r, htr E (ODepositData d) = Some r -> lenN r = 32) ->
  snapshot E log e -> i < 2 ^ 32 -> htr E (ODepositData d) = Some leaf -> merkle_branch_ok E leaf br 33 i (e1_deposit_root e) = true ->
  option_map (fun x => htr E (ODepositData x)) (nthN log i) = Some (Some leaf) \/ hash_broken E.
Proof.
  intros Hw Hm H32 (leaves & Hn & Hl & Hr) Hi Hd H. rewrite Hr, list_tree_32 in H.
  exact (proven_leaf_at E 32 log (e1_deposit_count e) leaves i d br leaf Hw Hm H32 Hl Hi Hd H).
Qed.

(** ** The deposit counter along a chain *)
Lemma evo_index E f l s t : l <> LBlock -> evo E f l s t -> eth1_deposit_index t = eth1_deposit_index s.
Proof.
  intros Hl H. induction H as [s t H|s|s t u _ IH1 _ IH2]; [|reflexivity|congruence].
  inversion H; subst; try contradiction; try reflexivity.
Qed.
Lemma slot_index (E : Env) f s t : ctx_sane E -> slot s + 1 < 2 ^ 64 -> process_slots E f (slot s + 1) s = (Ok tt, t) -> eth1_deposit_index t = eth1_deposit_index s.
Proof.
  intros Hc Hb H. assert (Hb' : slot s + 1 < U64) by (rewrite U64_val; pows; lia).
  assert (Ha : advance_slot E f s = (Ok tt, t)).
  { rewrite process_slots_loop in H by lia. replace (N.to_nat (slot s + 1 - slot s)) with 1%nat in H by lia.
    rewrite loop_step in H by lia. apply sbind_ok_inv in H as ([] & m & H1 & H). rewrite loop_done in H; [injection H as <-; exact H1|].
    destruct (advance_inv E Hc f s m Hb' H1) as (s1 & s2 & _ & _ & _ & S2 & ->). gs. lia. }
  destruct (advance_inv E Hc f s t Hb' Ha) as (s1 & s2 & A1 & A2 & A3 & A4 & ->). gs.
  pose proof (evp_slot E f s) as P. rewrite A1 in P. apply evo_index in P; [|discriminate]. cbn [snd] in P. rewrite <- P.
  destruct ((slot s + 1) mod SLOTS_PER_EPOCH E =? 0); [|subst; reflexivity].
  pose proof (evp_epoch E f s1) as Q. rewrite A3 in Q. apply evo_index in Q; [exact Q|discriminate].
Qed.
Lemma upgrade_index (E : Env) f g s t : chain_call E (f, s) (g, t) -> f <> g -> eth1_deposit_index t = eth1_deposit_index s.
Proof.
  intros H Hne. inversion H; subst; try congruence.
  - match goal with H : upgrade_to_altair E s = Ok t |- _ => rename H into Hu end. unfold upgrade_to_altair in Hu. rinv Hu. subst t.
    match goal with H : translate_participation _ _ _ = Ok _ |- _ => unfold translate_participation in H; rinv H; subst end. unfold altair_base. gs. reflexivity.
  - match goal with H : upgrade_to_bellatrix E s = Ok t |- _ => unfold upgrade_to_bellatrix in H; rinv H; subst end. reflexivity.
  - match goal with H : upgrade_to_capella E s = Ok t |- _ => unfold upgrade_to_capella in H; rinv H; subst end. reflexivity.
  - match goal with H : upgrade_to_deneb E s = Ok t |- _ => unfold upgrade_to_deneb in H; rinv H; subst end. reflexivity.
  - match goal with H : upgrade_to_electra E s = Ok t |- _ => rename H into Hu end. unfold upgrade_to_electra in Hu. rinv Hu.
    match type of Hu with context [electra_finish E ?b] => assert (K : eth1_deposit_index (snd (electra_finish E b)) = eth1_deposit_index b) end.
    { generalize (electra_base E x x0 x1 s). change (keeps eth1_deposit_index (electra_finish E)). unfold electra_finish, queue_entire_balance_and_reset_validator, queue_excess_active_balance, mod_validator. kp. }
    destruct (electra_finish E _) as [r post]. cbn [snd] in K. rinv Hu. subst post. rewrite K. unfold electra_base. gs. reflexivity.
Qed.
Lemma paid_runs (E : Env) p0 z w l : ctx_sane E -> paid E p0 (z :: w) l -> eth1_deposit_index (snd p0) + lenN l < 2 ^ 64 ->
  eth1_deposit_index (snd z) = eth1_deposit_index (snd p0) + lenN l
  /\ forall k d, nthN l k = Some d -> exists f t leaf, In (f, t) (z :: w) /\ deposit_root E d = Some leaf
       /\ merkle_branch_ok E leaf (dep_proof d) 33 (eth1_deposit_index (snd p0) + k) (e1_deposit_root (eth1_data t)) = true.
Proof.
  intros Hc H. remember (z :: w) as zw eqn:Ez. revert z w Ez. induction H as [|f s t w l H IH Hb Hs|f b s t w l H IH Hp|f g s t w l H IH Hu Hne]; intros z w' Ez Hi; injection Ez as <- <-.
  - split; [change (lenN (@nil Deposit)) with 0; lia|]. intros k d Hk. discriminate.
  - destruct (IH _ _ eq_refl Hi) as [A B]. split; [cbn [snd] in *; rewrite (slot_index E f s t Hc Hb Hs); exact A|].
    intros k d Hk. destruct (B k d Hk) as (f' & t' & leaf & I & R). exists f', t', leaf. split; [right; exact I|exact R].
  - rewrite lenN_app in Hi |- *. destruct (IH _ _ eq_refl ltac:(lia)) as [A B]. cbn [snd] in *.
    destruct (block_deposits E f b s t ltac:(lia) Hp) as (_ & Hx & Hy). split; [lia|].
    intros k d Hk. destruct (N.lt_ge_cases k (lenN l)) as [Hlt|Hge].
    + rewrite nthN_app_l in Hk by exact Hlt. destruct (B k d Hk) as (f' & t' & leaf & I & R). exists f', t', leaf. split; [right; exact I|exact R].
    + rewrite nthN_app_r in Hk by exact Hge. destruct (Hy _ _ Hk) as (leaf & L1 & L2). exists f, t, leaf. split; [left; reflexivity|]. split; [exact L1|].
      rewrite A in L2. replace (eth1_deposit_index (snd p0) + k) with (eth1_deposit_index (snd p0) + lenN l + (k - lenN l)) by lia. exact L2.
  - destruct (IH _ _ eq_refl Hi) as [A B]. split; [cbn [snd] in *; rewrite (upgrade_index E f g s t Hu Hne); exact A|].
    intros k d Hk. destruct (B k d Hk) as (f' & t' & leaf & I & R). exists f', t', leaf. split; [right; exact I|exact R].
Qed.
