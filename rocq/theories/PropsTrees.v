(** * Light client index constants (C75) and blob sidecar inclusion proofs (C71) *)
From Coq Require Import String.
From Verif Require Import Base BaseLemmas Types Ctx Presets Env Trees SpecCommon SpecOps SpecFlow SpecTrees FlowProofs PropsFlow ToyCtx Toy Toy2.

(** ** trees *)
Lemma nthN_skipn_nat {A} n (l : list A) i : nthN (skipn n l) i = nthN l (N.of_nat n + i).
Proof.
  rewrite !nthN_nth_error. replace (N.to_nat (N.of_nat n + i)) with (n + N.to_nat i)%nat by lia. revert l. induction n as [|n IH]; intros l; [reflexivity|].
  destruct l as [|x l]; cbn [skipn Nat.add nth_error]; [destruct (N.to_nat i); reflexivity|apply IH].
Qed.
Lemma nthN_firstn_nat {A} n (l : list A) i : i < N.of_nat n -> nthN (firstn n l) i = nthN l i.
Proof.
  intros H. rewrite !nthN_nth_error. assert (Hi : (N.to_nat i < n)%nat) by lia. revert Hi. generalize (N.to_nat i). clear. intros k. revert n l. induction k as [|k IH]; intros [|n] [|x l] Hk; try lia; try reflexivity.
  cbn [firstn nth_error]. apply IH. lia.
Qed.
Lemma below_balanced : forall d l i, i < 2 ^ N.of_nat d -> below (balanced d l) d i = Some (match nthN l i with Some t => t | None => Leaf zero32 end).
Proof.
  induction d as [|d IH]; intros l i Hi.
  - change (2 ^ N.of_nat 0) with 1 in Hi. replace i with 0 by lia. destruct l; reflexivity.
  - cbn [below balanced]. rewrite Nnat.Nat2N.inj_succ, N.pow_succ_r' in Hi. set (p := 2 ^ N.of_nat d) in *.
    assert (Hp : Nat.pow 2 d = N.to_nat p) by (unfold p; rewrite Nnat.N2Nat.inj_pow, Nnat.Nat2N.id; reflexivity).
    assert (Hb : N.testbit i (N.of_nat d) = (p <=? i)).
    { rewrite N.testbit_odd, N.shiftr_div_pow2. fold p. destruct (N.leb_spec p i) as [H|H].
      - replace (i / p) with 1; [reflexivity|]. apply (N.div_unique i p 1 (i - p)); lia.
      - rewrite N.div_small by lia. reflexivity. }
    rewrite Hb, Hp. assert (Hm : forall t j, below t d j = below t d (j mod p)).
    { intros t j. revert t. unfold p. assert (Hk : forall k, (k <= d)%nat -> forall t, below t k j = below t k (j mod 2 ^ N.of_nat d)).
      { induction k as [|k IHk]; intros Hk t; [reflexivity|]. destruct t as [c|a b]; [reflexivity|]. cbn [below].
        rewrite N.mod_pow2_bits_low by lia. destruct (N.testbit j (N.of_nat k)); apply IHk; lia. }
      intros t. apply Hk. lia. }
    destruct (N.leb_spec p i) as [H|H].
    + rewrite Hm. replace (i mod p) with (i - p) by (apply (N.mod_unique i p 1); lia). rewrite IH by lia. f_equal.
      rewrite nthN_skipn_nat. replace (N.of_nat (N.to_nat p) + (i - p)) with i by lia. reflexivity.
    + rewrite IH by exact H. f_equal. rewrite nthN_firstn_nat by lia. reflexivity.
Qed.

Lemma below_mod d t i : below t d i = below t d (i mod 2 ^ N.of_nat d).
Proof.
  assert (Hk : forall k, (k <= d)%nat -> forall t, below t k i = below t k (i mod 2 ^ N.of_nat d)).
  { induction k as [|k IHk]; intros Hk u; [reflexivity|]. destruct u as [c|a b]; [reflexivity|]. cbn [below].
    rewrite N.mod_pow2_bits_low by lia. destruct (N.testbit i (N.of_nat k)); apply IHk; lia. }
  apply Hk. lia.
Qed.
Lemma below_compose : forall d1 t i1 u, below t d1 i1 = Some u -> forall d2 i2 v, below u d2 i2 = Some v -> i2 < 2 ^ N.of_nat d2 ->
  below t (d1 + d2) (i1 * 2 ^ N.of_nat d2 + i2) = Some v.
Proof.
  induction d1 as [|d1 IH]; intros t i1 u H1 d2 i2 v H2 Hi.
  - cbn [below] in H1. injection H1 as <-. cbn [Nat.add]. rewrite below_mod. rewrite N.add_comm, N.mod_add by (apply N.pow_nonzero; lia). rewrite N.mod_small by exact Hi. exact H2.
  - destruct t as [c|a b]; [discriminate|]. cbn [Nat.add below] in *.
    replace (N.testbit (i1 * 2 ^ N.of_nat d2 + i2) (N.of_nat (d1 + d2))) with (N.testbit i1 (N.of_nat d1)); [eapply IH; eassumption|].
    rewrite !N.testbit_odd, !N.shiftr_div_pow2. f_equal. rewrite Nnat.Nat2N.inj_add, N.pow_add_r, N.mul_comm with (n := 2 ^ N.of_nat d1), <- N.div_div by (apply N.pow_nonzero; lia).
    rewrite N.add_comm, N.div_add by (apply N.pow_nonzero; lia). rewrite (N.div_small i2) by exact Hi. reflexivity.
Qed.
Lemma siblings_len H : forall d t i u, below t d i = Some u -> lenN (siblings H t d i) = N.of_nat d.
Proof.
  induction d as [|d IH]; intros t i u Hb; [reflexivity|]. destruct t as [c|a b]; [discriminate|]. cbn [below siblings] in *.
  destruct (N.testbit i (N.of_nat d)); rewrite lenN_app; (rewrite (IH _ _ _ Hb)); change (lenN [?x]) with 1; lia.
Qed.
Lemma branch_root_snoc H br x : forall v i, branch_root H v (br ++ [x]) i
  = if N.testbit i (lenN br) then H (x ++ branch_root H v br i) else H (branch_root H v br i ++ x).
Proof.
  induction br as [|b br IH]; intros v i.
  - cbn [app branch_root]. change (lenN (@nil bytes)) with 0. rewrite N.bit0_odd. reflexivity.
  - cbn [app branch_root]. rewrite IH. rewrite lenN_cons. replace (lenN br + 1) with (N.succ (lenN br)) by lia. rewrite N.div2_bits by lia. reflexivity.
Qed.
(** the honest branch leads from the subtree to the root *)
Lemma honest_branch H : forall d t i u, below t d i = Some u -> branch_root H (root_of H u) (siblings H t d i) i = root_of H t.
Proof.
  induction d as [|d IH]; intros t i u Hb; [injection Hb as ->; reflexivity|]. destruct t as [c|a b]; [discriminate|]. cbn [below siblings root_of] in *.
  destruct (N.testbit i (N.of_nat d)) eqn:Ht; rewrite branch_root_snoc, (siblings_len H _ _ _ _ Hb), Ht, (IH _ _ _ Hb); reflexivity.
Qed.
Lemma root_len H t : (forall b, lenN (H b) = 32) -> chunks_wf t -> lenN (root_of H t) = 32.
Proof. intros Hw. destruct t; cbn; [auto|intros _; apply Hw]. Qed.
Lemma siblings_wf H : (forall b, lenN (H b) = 32) -> forall d t i, chunks_wf t -> forall b, In b (siblings H t d i) -> lenN b = 32.
Proof.
  intros Hw. induction d as [|d IH]; intros t i Ht b Hb; [contradiction|]. destruct t as [c|l r]; [contradiction|]. destruct Ht as [Hl Hr]. cbn [siblings] in Hb.
  destruct (N.testbit i (N.of_nat d)); apply in_app_or in Hb as [Hb|[<-|[]]]; try (eapply IH; [|exact Hb]; assumption); apply root_len; assumption.
Qed.
Lemma below_wf : forall d t i u, chunks_wf t -> below t d i = Some u -> chunks_wf u.
Proof.
  induction d as [|d IH]; intros t i u Ht Hb; [injection Hb as <-; exact Ht|]. destruct t as [c|l r]; [discriminate|]. destruct Ht as [Hl Hr]. cbn [below] in Hb.
  destruct (N.testbit i (N.of_nat d)); (eapply IH; [|exact Hb]; assumption).
Qed.
Lemma balanced_wf : forall d l, Forall chunks_wf l -> chunks_wf (balanced d l).
Proof.
  induction d as [|d IH]; intros l Hl; cbn [balanced].
  - destruct Hl; [reflexivity|assumption].
  - assert (H : Forall chunks_wf (firstn (Nat.pow 2 d) l) /\ Forall chunks_wf (skipn (Nat.pow 2 d) l)) by (rewrite <- Forall_app, firstn_skipn; exact Hl).
    split; apply IH; apply H.
Qed.

Lemma position_nth : forall names name k i, position name names k = Some i -> k <= i /\ nthN names (i - k) = Some name.
Proof.
  induction names as [|x l IH]; intros name k i H; [discriminate|]. cbn [position] in H. destruct (String.eqb_spec x name) as [->|Hne].
  - injection H as <-. split; [lia|]. rewrite N.sub_diag. reflexivity.
  - destruct (IH _ _ _ H) as [H1 H2]. split; [lia|]. cbn [nthN]. replace (i - k =? 0) with false by lia. replace (i - k - 1) with (i - (k + 1)) by lia. exact H2.
Qed.
Lemma container_field names field name i : position name names 0 = Some i ->
  below (container names field) (N.to_nat (N.log2_up (lenN names))) i = Some (field name) /\ i < 2 ^ N.log2_up (lenN names).
Proof.
  intros H. apply position_nth in H as [_ H]. rewrite N.sub_0_r in H.
  assert (Hi : i < 2 ^ N.log2_up (lenN names)).
  { apply nthN_some in H. apply N.lt_le_trans with (lenN names); [exact H|]. destruct (N.eq_dec (lenN names) 0) as [->|Hz]; [lia|]. apply N.log2_up_le_pow2; lia. }
  split; [|exact Hi]. unfold container. rewrite below_balanced by (rewrite Nnat.N2Nat.id; exact Hi). rewrite nthN_map, H. reflexivity.
Qed.

(** ** C75: from altair to deneb the constants address the finalized root and the two sync committees *)
Theorem C75_state_indices : forall (f : Fork) (field : string -> tree) (epoch root : bytes),
  f <> Phase0 -> f <> Electra -> field "finalized_checkpoint"%string = Node (Leaf epoch) (Leaf root) ->
  let t := container (state_fields f) field in
  subtree_at t FINALIZED_ROOT_INDEX = Some (Leaf root)
  /\ subtree_at t CURRENT_SYNC_COMMITTEE_INDEX = Some (field "current_sync_committee"%string)
  /\ subtree_at t NEXT_SYNC_COMMITTEE_INDEX = Some (field "next_sync_committee"%string)
  /\ FINALIZED_ROOT_INDEX_FLOOR_LOG_2 = N.log2 FINALIZED_ROOT_INDEX
  /\ CURRENT_SYNC_COMMITTEE_INDEX_FLOOR_LOG_2 = N.log2 CURRENT_SYNC_COMMITTEE_INDEX
  /\ NEXT_SYNC_COMMITTEE_INDEX_FLOOR_LOG_2 = N.log2 NEXT_SYNC_COMMITTEE_INDEX.
Proof.
  intros f field epoch root H0 H1 Hf t.
  assert (Ht : forall name i, position name (state_fields f) 0 = Some i -> below t 5 i = Some (field name)).
  { intros name i Hp. destruct (container_field (state_fields f) field name i Hp) as [H _]. replace (N.to_nat (N.log2_up (lenN (state_fields f)))) with 5%nat in H by (destruct f; try contradiction; reflexivity). exact H. }
  assert (Hs : forall g d i, N.to_nat (N.log2 g) = d -> (g mod 2 ^ N.log2 g)%N = i -> subtree_at t g = below t d i) by (intros g d i <- <-; reflexivity).
  rewrite (Hs _ 6%nat 41), (Hs _ 5%nat 22), (Hs _ 5%nat 23) by reflexivity.
  split; [|split; [apply Ht; destruct f; try contradiction; reflexivity|split; [apply Ht; destruct f; try contradiction; reflexivity|repeat split]]].
  apply (below_compose 5 t 20 (Node (Leaf epoch) (Leaf root))) with (d2 := 1%nat) (i2 := 1); [|reflexivity|reflexivity].
  rewrite <- Hf. apply Ht. destruct f; try contradiction; reflexivity.
Qed.
(** the execution payload of a block body, from capella on *)
Theorem C75_payload_index : forall (f : Fork) (field : string -> tree), f = Capella \/ f = Deneb \/ f = Electra ->
  subtree_at (container (body_fields f) field) EXECUTION_PAYLOAD_INDEX = Some (field "execution_payload"%string)
  /\ EXECUTION_PAYLOAD_INDEX_FLOOR_LOG_2 = N.log2 EXECUTION_PAYLOAD_INDEX.
Proof.
  intros f field Hf. split; [|reflexivity]. assert (Hp : position "execution_payload" (body_fields f) 0 = Some 9) by (destruct Hf as [->|[->| ->]]; reflexivity).
  destruct (container_field (body_fields f) field _ _ Hp) as [H _]. replace (N.to_nat (N.log2_up (lenN (body_fields f)))) with 4%nat in H by (destruct Hf as [->|[->| ->]]; reflexivity). exact H.
Qed.
(** and the branches of the light client containers verify for exactly these subtrees: the honest branch has the declared length and leads to the root *)
Theorem C75_branches : forall (H : bytes -> bytes) (t u : tree) (g : N), subtree_at t g = Some u ->
  let br := siblings H t (N.to_nat (N.log2 g)) (g mod 2 ^ N.log2 g) in
  lenN br = N.log2 g /\ branch_root H (root_of H u) br (g mod 2 ^ N.log2 g) = root_of H t.
Proof.
  intros H t u g Hg br. unfold subtree_at in Hg. split; [unfold br; rewrite (siblings_len H _ _ _ _ Hg); lia|]. apply honest_branch. exact Hg.
Qed.
(** in electra the constants are stale: they address zero padding, whatever the state *)
Theorem C75_electra_refuted : forall (field : string -> tree), let t := container (state_fields Electra) field in
  subtree_at t FINALIZED_ROOT_INDEX = Some (Leaf zero32)
  /\ subtree_at t CURRENT_SYNC_COMMITTEE_INDEX = Some (Node (Leaf zero32) (Leaf zero32))
  /\ subtree_at t NEXT_SYNC_COMMITTEE_INDEX = Some (Node (Leaf zero32) (Leaf zero32)).
Proof. intros field t. repeat split; reflexivity. Qed.
(** the indices that would be right *)
Theorem C75_electra_should_be : forall (field : string -> tree) (epoch root : bytes), field "finalized_checkpoint"%string = Node (Leaf epoch) (Leaf root) ->
  let t := container (state_fields Electra) field in
  subtree_at t 169 = Some (Leaf root) /\ subtree_at t 86 = Some (field "current_sync_committee"%string) /\ subtree_at t 87 = Some (field "next_sync_committee"%string).
Proof.
  intros field epoch root Hf t.
  assert (Ht : forall name i, position name (state_fields Electra) 0 = Some i -> below t 6 i = Some (field name)) by (intros name i Hp; exact (proj1 (container_field (state_fields Electra) field name i Hp))).
  assert (Hs : forall g d i, N.to_nat (N.log2 g) = d -> (g mod 2 ^ N.log2 g)%N = i -> subtree_at t g = below t d i) by (intros g d i <- <-; reflexivity).
  rewrite (Hs _ 7%nat 41), (Hs _ 6%nat 22), (Hs _ 6%nat 23) by reflexivity.
  split; [|split; apply Ht; reflexivity]. apply (below_compose 6 t 20 (Node (Leaf epoch) (Leaf root))) with (d2 := 1%nat) (i2 := 1); [|reflexivity|reflexivity].
  rewrite <- Hf. apply Ht. reflexivity.
Qed.
Definition toy_field (name : string) : tree :=
  if String.eqb name "finalized_checkpoint" then Node (Leaf (to_le 32 5)) (Leaf (repeat 9 32)) else Leaf (to_le 32 (N.of_nat (String.length name))).
Example C75_toy : toy_field "finalized_checkpoint" = Node (Leaf (to_le 32 5)) (Leaf (repeat 9 32))
  /\ subtree_at (container (state_fields Deneb) toy_field) 105 = Some (Leaf (repeat 9 32))
  /\ subtree_at (container (state_fields Electra) toy_field) 105 = Some (Leaf zero32).
Proof. repeat split; vm_compute; reflexivity. Qed.

(** ** C71: blob sidecar inclusion proofs *)
Definition sidecar_preset (limit depth : N) : Prop :=
  (limit = 4096 /\ depth = KZG_COMMITMENT_INCLUSION_PROOF_DEPTH_MAINNET) \/ (limit = 16 /\ depth = KZG_COMMITMENT_INCLUSION_PROOF_DEPTH_MINIMAL).
Lemma commitments_gindex f limit depth index : (f = Deneb \/ f = Electra) -> sidecar_preset limit depth -> index < limit ->
  exists g, element_gindex (body_fields f) "blob_kzg_commitments" limit index = Some g /\ get_subtree_index g = 22 * limit + index.
Proof.
  intros Hf Hl Hi. exists (54 * limit + index). unfold element_gindex. replace (field_gindex (body_fields f) "blob_kzg_commitments") with (Some 27) by (destruct Hf as [->| ->]; reflexivity).
  replace (limit <=? index) with false by lia. destruct Hl as [[-> ->]|[-> ->]]; (split; [f_equal; reflexivity|]); unfold get_subtree_index.
  - change (54 * 4096) with (2 ^ 17 + 90112). assert (HL : N.log2 (2 ^ 17 + 90112 + index) = 17) by (apply N.log2_unique; [lia|]; change (2 ^ N.succ 17) with 262144; change (2 ^ 17) with 131072; lia).
    rewrite HL. symmetry. apply (N.mod_unique _ _ 1); change (2 ^ 17) with 131072; lia.
  - change (54 * 16) with (2 ^ 9 + 352). assert (HL : N.log2 (2 ^ 9 + 352 + index) = 9) by (apply N.log2_unique; [lia|]; change (2 ^ N.succ 9) with 1024; change (2 ^ 9) with 512; lia).
    rewrite HL. symmetry. apply (N.mod_unique _ _ 1); change (2 ^ 9) with 512; lia.
Qed.
(** accepted exactly when the index is within the limit, the commitment has a root and the external check accepts it for the position the commitment
    has in the body tree: field 11 of at most 16, then the data half of the list, then the element *)
Theorem C71_sidecar_accepts : forall (E : Env) (f : Fork) (limit depth index : N) (leaf : option bytes) (branch : list bytes) (body_root : bytes),
  f = Deneb \/ f = Electra -> sidecar_preset limit depth ->
  (verify_blob_sidecar_inclusion_proof E f limit depth index leaf branch body_root = Ok tt
   <-> index < limit /\ exists l, leaf = Some l /\ merkle_branch_ok E l branch depth ((11 * 2 + 0) * limit + index) body_root = true)
  /\ (verify_blob_sidecar_inclusion_proof E f limit depth index leaf branch body_root = Ok tt
      \/ verify_blob_sidecar_inclusion_proof E f limit depth index leaf branch body_root = Err EMerkleization).
Proof.
  intros E f limit depth index leaf branch body_root Hf Hl. change (11 * 2 + 0) with 22. unfold verify_blob_sidecar_inclusion_proof.
  destruct (N.lt_ge_cases index limit) as [Hi|Hi].
  - destruct (commitments_gindex f limit depth index Hf Hl Hi) as (g & -> & Hg). cbn [ok_or rbind]. destruct leaf as [l|]; cbn [ok_or rbind].
    + rewrite Hg. destruct (merkle_branch_ok E l branch depth (22 * limit + index) body_root) eqn:Hm; cbn [require]; (split; [|auto]); split; auto.
      * intros _. split; [exact Hi|]. exists l. auto.
      * discriminate.
      * intros (_ & l' & [= <-] & X). congruence.
    + split; [|auto]. split; [discriminate|]. intros (_ & l & X & _). discriminate.
  - replace (element_gindex (body_fields f) "blob_kzg_commitments" limit index) with (@None N).
    + cbn [ok_or rbind]. split; [|auto]. split; [discriminate|]. intros [X _]. lia.
    + unfold element_gindex. destruct (field_gindex _ _); [|reflexivity]. replace (limit <=? index) with true by lia. reflexivity.
Qed.
(** bodies of earlier forks have no commitments *)
Theorem C71_sidecar_earlier_forks : forall (E : Env) (f : Fork) (limit depth index : N) (leaf : option bytes) (branch : list bytes) (body_root : bytes),
  f <> Deneb -> f <> Electra -> verify_blob_sidecar_inclusion_proof E f limit depth index leaf branch body_root = Err EMerkleization.
Proof. intros E f limit depth index leaf branch body_root H1 H2. destruct f; try contradiction; reflexivity. Qed.

(** the subtree addressed by the external check is the commitment at [index] in the body *)
Lemma commitment_below f limit depth index field elements : (f = Deneb \/ f = Electra) -> sidecar_preset limit depth -> index < limit ->
  field "blob_kzg_commitments"%string = list_tree limit elements ->
  below (container (body_fields f) field) (N.to_nat depth) (22 * limit + index) = Some (match nthN elements index with Some t => t | None => Leaf zero32 end).
Proof.
  intros Hf Hl Hi Hc. assert (Hp : position "blob_kzg_commitments" (body_fields f) 0 = Some 11) by (destruct Hf as [->| ->]; reflexivity).
  destruct (container_field (body_fields f) field _ _ Hp) as [Hb _]. replace (N.to_nat (N.log2_up (lenN (body_fields f)))) with 4%nat in Hb by (destruct Hf as [->| ->]; reflexivity).
  rewrite Hc in Hb.
  assert (He : forall d, limit = 2 ^ N.of_nat d -> N.log2_up limit = N.of_nat d ->
    below (container (body_fields f) field) (4 + S d) (22 * limit + index) = Some (match nthN elements index with Some t => t | None => Leaf zero32 end)).
  { intros d H1 H2. replace (22 * limit + index) with (11 * 2 ^ N.of_nat (S d) + index) by (rewrite Nnat.Nat2N.inj_succ, N.pow_succ_r'; lia).
    eapply below_compose; [exact Hb| |rewrite Nnat.Nat2N.inj_succ, N.pow_succ_r'; lia].
    unfold list_tree. cbn [below]. replace (N.testbit index (N.of_nat d)) with false.
    - rewrite H2, Nnat.Nat2N.id. apply below_balanced. lia.
    - symmetry. rewrite N.testbit_odd, N.shiftr_div_pow2, N.div_small by lia. reflexivity. }
  destruct Hl as [[-> ->]|[-> ->]]; [exact (He 12%nat eq_refl eq_refl)|exact (He 4%nat eq_refl eq_refl)].
Qed.
(** the external check computes the branch root over 32-byte chunks *)
Definition branch_check (E : Env) : Prop := forall leaf branch depth index root, merkle_branch_ok E leaf branch depth index root = true <->
  lenN branch = depth /\ (forall b, In b branch -> lenN b = 32) /\ lenN leaf = 32 /\ branch_root (hash E) leaf branch index = root.
(** completeness: the branch of the commitment in the block body is accepted *)
Theorem C71_sidecar_honest : forall (E : Env) (f : Fork) (limit depth index : N) (field : string -> tree) (elements : list tree) (u : tree),
  f = Deneb \/ f = Electra -> sidecar_preset limit depth -> index < limit -> (forall b, lenN (hash E b) = 32) -> branch_check E ->
  field "blob_kzg_commitments"%string = list_tree limit elements -> nthN elements index = Some u ->
  let body := container (body_fields f) field in chunks_wf body -> chunks_wf u ->
  exists branch, verify_blob_sidecar_inclusion_proof E f limit depth index (Some (root_of (hash E) u)) branch (root_of (hash E) body) = Ok tt.
Proof.
  intros E f limit depth index field elements u Hf Hl Hi Hw Hm Hc Hu body Wb Wu.
  pose proof (commitment_below f limit depth index field elements Hf Hl Hi Hc) as Hb. rewrite Hu in Hb. fold body in Hb.
  exists (siblings (hash E) body (N.to_nat depth) (22 * limit + index)).
  apply (C71_sidecar_accepts E f limit depth index (Some (root_of (hash E) u)) _ _ Hf Hl). split; [exact Hi|]. exists (root_of (hash E) u). split; [reflexivity|].
  apply Hm. split; [rewrite (siblings_len _ _ _ _ _ Hb); lia|]. split; [apply siblings_wf; assumption|]. split; [apply root_len; assumption|].
  apply honest_branch. exact Hb.
Qed.
(** soundness: a leaf other than the commitment of the body at that index is accepted only with a hash collision *)
Theorem C71_sidecar_sound : forall (E : Env) (f : Fork) (limit depth index : N) (field : string -> tree) (elements : list tree) (leaf : bytes) (branch : list bytes),
  f = Deneb \/ f = Electra -> sidecar_preset limit depth -> (forall b, lenN (hash E b) = 32) -> branch_check E ->
  field "blob_kzg_commitments"%string = list_tree limit elements ->
  let body := container (body_fields f) field in chunks_wf body -> Forall chunks_wf elements ->
  verify_blob_sidecar_inclusion_proof E f limit depth index (Some leaf) branch (root_of (hash E) body) = Ok tt ->
  leaf = root_of (hash E) (match nthN elements index with Some u => u | None => Leaf zero32 end) \/ exists x y, collision (hash E) x y.
Proof.
  intros E f limit depth index field elements leaf branch Hf Hl Hw Hm Hc body Wb We H.
  apply (C71_sidecar_accepts E f limit depth index (Some leaf) _ _ Hf Hl) in H as (Hi & l & [= <-] & H). change (11 * 2 + 0) with 22 in H. apply Hm in H as (L & B & Ll & R).
  pose proof (commitment_below f limit depth index field elements Hf Hl Hi Hc) as Hb. fold body in Hb.
  set (u := match nthN elements index with Some u => u | None => Leaf zero32 end) in *.
  assert (Wu : chunks_wf u).
  { unfold u. destruct (nthN elements index) as [t|] eqn:Ht; [|reflexivity]. rewrite Forall_forall in We. apply We. rewrite nthN_nth_error in Ht. eapply nth_error_In. exact Ht. }
  destruct (bytes_eqb leaf (root_of (hash E) u)) eqn:Heq; [left; apply bytes_eqb_iff; exact Heq|right].
  apply (branch_collision (hash E) Hw branch (siblings (hash E) body (N.to_nat depth) (22 * limit + index)) leaf (root_of (hash E) u) (22 * limit + index)); try assumption.
  - rewrite (siblings_len _ _ _ _ _ Hb), Nnat.N2Nat.id. exact L.
  - apply root_len; assumption.
  - apply siblings_wf; assumption.
  - intros X. apply bytes_eqb_iff in X. congruence.
  - rewrite R. symmetry. apply honest_branch. exact Hb.
Qed.
(** two commitments in a deneb body *)
Definition toy_body (name : string) : tree :=
  if String.eqb name "blob_kzg_commitments" then list_tree 16 [Leaf (repeat 3 32); Leaf (repeat 4 32)] else Leaf (to_le 32 (N.of_nat (String.length name))).
Example C71_sidecar_toy : (forall b, lenN (hash fold_env b) = 32) /\ branch_check fold_env
  /\ toy_body "blob_kzg_commitments" = list_tree 16 [Leaf (repeat 3 32); Leaf (repeat 4 32)] /\ chunks_wf (container (body_fields Deneb) toy_body)
  /\ let t := container (body_fields Deneb) toy_body in
     let root := root_of toy_hash t in
     let branch := siblings toy_hash t 9 353 in
     verify_blob_sidecar_inclusion_proof fold_env Deneb 16 9 1 (Some (repeat 4 32)) branch root = Ok tt
     /\ verify_blob_sidecar_inclusion_proof fold_env Deneb 16 9 1 (Some (repeat 3 32)) branch root = Err EMerkleization
     /\ verify_blob_sidecar_inclusion_proof fold_env Deneb 16 9 16 (Some (repeat 4 32)) branch root = Err EMerkleization.
Proof.
  split; [exact (proj1 C71_toy)|]. split; [|split; [reflexivity|split; [cbn; repeat split; reflexivity|]]].
  - intros leaf branch depth index root. split; [apply (proj1 (proj2 C71_toy))|]. intros (H1 & H2 & H3 & H4). cbn [fold_env orc merkle_branch_ok fold_orc hash].
    rewrite !andb_true_iff. split; [split; [split; [apply N.eqb_eq; exact H1|apply forallb_forall; intros b Hb; apply N.eqb_eq; apply H2; exact Hb]|apply N.eqb_eq; exact H3]|apply bytes_eqb_iff; exact H4].
  - cbv zeta. repeat split; vm_compute; reflexivity.
Qed.

Print Assumptions C75_state_indices.
Print Assumptions C75_payload_index.
Print Assumptions C75_branches.
Print Assumptions C75_electra_refuted.
Print Assumptions C75_electra_should_be.
Print Assumptions C71_sidecar_accepts.
Print Assumptions C71_sidecar_earlier_forks.
Print Assumptions C71_sidecar_honest.
Print Assumptions C71_sidecar_sound.
