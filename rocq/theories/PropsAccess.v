(** * C88: the accessors of the fork-generic types *)
From Coq Require Import String.
From Verif Require Import Base Types Json Access AccessTable SpecAccess.
Local Open Scope string_scope.

Definition all_kinds : list container_kind := [KState; KBody; KBlock; KSignedBlock; KPayload; KHeader; KBlindedBody; KBlindedBlock; KSignedBlindedBlock].
Definition views (c : container_kind) : list view := match c with KSignedBlock | KSignedBlindedBlock => [Owned] | _ => [Owned; Shared; Exclusive] end.
Lemma kind_in c : In c all_kinds. Proof. destruct c; cbn; tauto. Qed.
Lemma view_in c w : has_view c w -> In w (views c).
Proof. intros [->|[H1 H2]]; [destruct c; cbn; tauto|]. destruct c; try congruence; destruct w; cbn; tauto. Qed.
Definition memS (n : string) (l : list string) : bool := existsb (String.eqb n) l.
Lemma memS_iff n l : memS n l = true <-> In n l.
Proof. unfold memS. rewrite existsb_exists. split; [intros (x & H & E); apply String.eqb_eq in E; now subst|intro H; exists n; split; [exact H|apply String.eqb_refl]]. Qed.
Definition arm_eqb (a b : arm) : bool :=
  match a, b with
  | Nothing, Nothing | Whole, Whole => true
  | Version f, Version g => fork_eqb f g
  | Part n, Part m | Wrapped n, Wrapped m => String.eqb n m
  | _, _ => false
  end.
Lemma fork_eqb_eq a b : fork_eqb a b = true -> a = b. Proof. destruct a, b; cbn; congruence. Qed.
Lemma arm_eqb_eq a b : arm_eqb a b = true -> a = b.
Proof. destruct a, b; cbn; try discriminate; try reflexivity; intro H; f_equal; (now apply fork_eqb_eq) || now apply String.eqb_eq. Qed.
(** the arm a field should have in a fork *)
Definition right_arm (c : container_kind) (f : Fork) (n : string) : arm :=
  if memS n (field_names c f) then match wrapped_kind c n with Some _ => Wrapped n | None => Part n end else Nothing.
Definition arm_of (c : container_kind) (w : view) (name : string) (f : Fork) : option (bool * arm) :=
  match row_of rows c w name with Some r => match select f (row_arms r) with Some a => Some (row_mut r, a) | None => None end | None => None end.
Definition arm_is (c : container_kind) (w : view) (name : string) (f : Fork) (m : bool) (a : arm) : bool :=
  match arm_of c w name f with Some (m', a') => Bool.eqb m m' && arm_eqb a a' | None => false end.
Lemma arm_is_eq c w name f m a : arm_is c w name f m a = true -> arm_of c w name f = Some (m, a).
Proof.
  unfold arm_is. destruct (arm_of c w name f) as [[m' a']|]; [|discriminate]. intro H. apply andb_true_iff in H as [H1 H2].
  apply Bool.eqb_prop in H1. apply arm_eqb_eq in H2. now subst.
Qed.
(** all fields of all forks *)
Definition every_field (c : container_kind) : list string := flat_map (field_names c) (variants c).
Lemma every_field_in c n : some_field c n -> In n (every_field c).
Proof. intros (f & F & H). apply in_flat_map. eauto. Qed.
Definition checked (P : container_kind -> view -> Fork -> bool) : bool :=
  forallb (fun c => forallb (fun w => forallb (fun f => P c w f) (variants c)) (views c)) all_kinds.
Lemma checked_all P : checked P = true -> forall c w f, has_view c w -> In f (variants c) -> P c w f = true.
Proof.
  unfold checked. intros H c w f V F. rewrite forallb_forall in H. specialize (H c (kind_in c)). rewrite forallb_forall in H.
  specialize (H w (view_in c w V)). rewrite forallb_forall in H. exact (H f F).
Qed.
Lemma readers_checked : checked (fun c w f => forallb (fun n => arm_is c w n f false (right_arm c f n)) (every_field c)) = true.
Proof. vm_compute. reflexivity. Qed.
Lemma writers_checked :
  checked (fun c w f => match w with Shared => true | _ => forallb (fun n => arm_is c w (n ++ "_mut") f true (right_arm c f n)) (every_field c) end) = true.
Proof. vm_compute. reflexivity. Qed.
Lemma versions_checked : checked (fun c w f => arm_is c w "version" f false (Version f)) = true.
Proof. vm_compute. reflexivity. Qed.
Lemma casts_checked : checked (fun c w f => forallb (fun g => arm_is c w (fork_accessor g) f false (if fork_eqb f g then Whole else Nothing)) (variants c)) = true.
Proof. vm_compute. reflexivity. Qed.
Lemma mut_casts_checked : checked (fun c w f => match w with Shared => true | _ =>
  forallb (fun g => arm_is c w (fork_accessor g ++ "_mut") f true (if fork_eqb f g then Whole else Nothing)) (variants c) end) = true.
Proof. vm_compute. reflexivity. Qed.
Definition converts (c : container_kind) (w : view) (f : Fork) : bool :=
  match converted f (conversions c w) with Some g => fork_eqb f g | None => false end.
Lemma conversions_checked : checked (fun c w f => match w with Owned => true | _ => converts c w f end) = true.
Proof. vm_compute. reflexivity. Qed.

(** ** Fields *)
Lemma field_of_in n kvs : In n (map fst kvs) -> exists v, field_of n kvs = Some v /\ In (n, v) kvs.
Proof.
  induction kvs as [|[k v] t IH]; intro H; [elim H|]. cbn [field_of map fst] in *. destruct (String.eqb_spec k n) as [->|N0].
  - exists v. split; [reflexivity|now left].
  - destruct H as [H|H]; [congruence|]. destruct (IH H) as (u & E & I). exists u. split; [exact E|now right].
Qed.
Lemma call_arm c w name x m a : arm_of c w name (variant x) = Some (m, a) -> get c w name x = deliver conversions c m a x.
Proof.
  unfold arm_of, get, call. destruct (row_of rows c w name) as [r|]; [|discriminate]. destruct (select (variant x) (row_arms r)); [|discriminate]. congruence.
Qed.
Lemma deliver_field c m x n k : well_typed c x -> In n (field_names c (variant x)) -> wrapped_kind c n = k ->
  (forall f kk, k = Some kk -> In f (variants c) -> In n (field_names c f) -> In f (variants kk)) -> (forall kk, k = Some kk -> has_view kk Shared) ->
  exists v, field_of n (inner x) = Some v /\ deliver conversions c m (right_arm c (variant x) n) x = Some (answer_for c n v (variant x)).
Proof.
  intros (F & L & T) I K KV KH. destruct (field_of_in n (inner x)) as (v & E & Iv); [rewrite L; exact I|]. exists v. split; [exact E|].
  unfold right_arm. rewrite (proj2 (memS_iff n _) I). unfold answer_for. rewrite K. destruct k as [kk|]; cbn [deliver]; rewrite E; [|reflexivity].
  rewrite K. destruct (T n v Iv) as (kvs & ->); [congruence|].
  assert (C : converted (variant x) (conversions kk (if m then Exclusive else Shared)) = Some (variant x)).
  { pose proof (checked_all _ conversions_checked kk (if m then Exclusive else Shared) (variant x)) as C. specialize (KH kk eq_refl).
    assert (H : converts kk (if m then Exclusive else Shared) (variant x) = true).
    { destruct m; apply C; try exact (KV _ kk eq_refl F I); [|exact KH]. destruct KH as [|KH]; [discriminate|right; exact KH]. }
    unfold converts in H. destruct (converted _ _) as [g|]; [|discriminate]. apply fork_eqb_eq in H. now subst. }
  now rewrite C.
Qed.
Lemma wrapped_ok c n k : wrapped_kind c n = Some k ->
  (forall f, In f (variants c) -> In n (field_names c f) -> In f (variants k)) /\ has_view k Shared.
Proof.
  intro K. destruct c; cbn [wrapped_kind] in K; try discriminate K;
    match type of K with context [String.eqb ?a ?b] => destruct (String.eqb_spec a b) as [->|]; [|discriminate K] end; inversion K; subst;
    (split; [|right; split; discriminate]); intros f F I;
    cbn [variants In] in *; intuition subst; try (exfalso; apply memS_iff in I; vm_compute in I; discriminate I); tauto.
Qed.

(** reading a field: its value if the fork has it, nothing if not; a field that is itself fork-generic comes back as the enum of the same fork *)
Theorem C88_read : forall (c : container_kind) (w : view) (n : string) (x : enum), has_view c w -> well_typed c x -> some_field c n ->
  (In n (field_names c (variant x)) -> exists v, field_of n (inner x) = Some v /\ get c w n x = Some (answer_for c n v (variant x))) /\
  (~ In n (field_names c (variant x)) -> get c w n x = Some ANothing).
Proof.
  intros c w n x V T S. pose proof (checked_all _ readers_checked c w (variant x) V (proj1 T)) as R. rewrite forallb_forall in R.
  specialize (R n (every_field_in c n S)). apply arm_is_eq in R. apply call_arm in R. split; intro I.
  - destruct (deliver_field c false x n _ T I eq_refl) as (v & E & D).
    + intros f kk K F J. now apply (proj1 (wrapped_ok c n kk K)).
    + intros kk K. now apply (proj2 (wrapped_ok c n kk K)).
    + exists v. split; [exact E|]. now rewrite R, D.
  - rewrite R. unfold right_arm. destruct (memS n (field_names c (variant x))) eqn:M; [apply memS_iff in M; contradiction|]. reflexivity.
Qed.
Lemma set_field_names n v kvs : map fst (set_field n v kvs) = map fst kvs.
Proof. induction kvs as [|[k u] t IH]; [reflexivity|]. cbn [set_field]. destruct (String.eqb k n); cbn [map fst]; [reflexivity|now rewrite IH]. Qed.
Lemma set_field_same n v kvs : In n (map fst kvs) -> field_of n (set_field n v kvs) = Some v.
Proof.
  induction kvs as [|[k u] t IH]; intro H; [elim H|]. cbn [set_field]. destruct (String.eqb_spec k n) as [->|N0]; cbn [field_of]; [now rewrite String.eqb_refl|].
  destruct (String.eqb_spec k n); [congruence|]. apply IH. destruct H; [contradiction|assumption].
Qed.
Lemma set_field_other n m v kvs : m <> n -> field_of m (set_field n v kvs) = field_of m kvs.
Proof.
  intro H. induction kvs as [|[k u] t IH]; [reflexivity|]. cbn [set_field]. destruct (String.eqb_spec k n) as [->|N0]; cbn [field_of].
  - destruct (String.eqb_spec n m); [congruence|reflexivity].
  - now rewrite IH.
Qed.
(** writing through the mutable accessor of a field: that field and nothing else; no effect if the fork lacks the field *)
Theorem C88_write : forall (c : container_kind) (w : view) (n : string) (v : value) (x : enum), has_view c w -> w <> Shared -> well_typed c x -> some_field c n ->
  exists y, put c w (n ++ "_mut") v x = Some y /\ variant y = variant x /\ map fst (inner y) = map fst (inner x) /\
    (forall m, m <> n -> field_of m (inner y) = field_of m (inner x)) /\
    (In n (field_names c (variant x)) -> field_of n (inner y) = Some v) /\
    (~ In n (field_names c (variant x)) -> y = x).
Proof.
  intros c w n v x V W T S. pose proof (checked_all _ writers_checked c w (variant x) V (proj1 T)) as R.
  assert (A : arm_of c w (n ++ "_mut") (variant x) = Some (true, right_arm c (variant x) n)).
  { destruct w; try congruence; rewrite forallb_forall in R; apply arm_is_eq; apply (R n (every_field_in c n S)). }
  unfold put, write. unfold arm_of in A. destruct (row_of rows c w (n ++ "_mut")) as [r|]; [|discriminate A].
  destruct (select (variant x) (row_arms r)) as [a|]; [|discriminate A]. inversion A as [[H1 H2]]. rewrite H1. clear R A H1. subst a. unfold right_arm in *.
  destruct (memS n (field_names c (variant x))) eqn:M.
  - apply memS_iff in M. exists (mkEnum (variant x) (set_field n v (inner x))).
    split; [destruct (wrapped_kind c n); reflexivity|]. cbn [variant inner]. split; [reflexivity|]. split; [apply set_field_names|].
    split; [intros; now apply set_field_other|]. split; [intro; apply set_field_same; now rewrite (proj1 (proj2 T))|contradiction].
  - exists x. repeat (split; [reflexivity|]). split; [|reflexivity]. intro I. apply memS_iff in I. congruence.
Qed.
(** [version] is the fork; [phase0], [altair], ... give the container exactly if it is of that fork *)
Theorem C88_version : forall (c : container_kind) (w : view) (x : enum), has_view c w -> In (variant x) (variants c) -> get c w "version" x = Some (AVersion (variant x)).
Proof. intros c w x V F. pose proof (checked_all _ versions_checked c w _ V F) as R. apply arm_is_eq, call_arm in R. exact R. Qed.
Theorem C88_cast : forall (c : container_kind) (w : view) (x : enum) (g : Fork), has_view c w -> In (variant x) (variants c) -> In g (variants c) ->
  get c w (fork_accessor g) x = Some (if fork_eqb (variant x) g then AWhole (inner x) else ANothing).
Proof.
  intros c w x g V F G. pose proof (checked_all _ casts_checked c w _ V F) as R. rewrite forallb_forall in R. specialize (R g G).
  apply arm_is_eq, call_arm in R. rewrite R. now destruct (fork_eqb (variant x) g).
Qed.
Theorem C88_cast_mut : forall (c : container_kind) (w : view) (x : enum) (g : Fork), has_view c w -> w <> Shared -> In (variant x) (variants c) -> In g (variants c) ->
  get c w (fork_accessor g ++ "_mut") x = Some (if fork_eqb (variant x) g then AWhole (inner x) else ANothing).
Proof.
  intros c w x g V W F G. pose proof (checked_all _ mut_casts_checked c w _ V F) as R.
  assert (A : arm_of c w (fork_accessor g ++ "_mut") (variant x) = Some (true, if fork_eqb (variant x) g then Whole else Nothing))
    by (destruct w; try congruence; rewrite forallb_forall in R; apply arm_is_eq, R; exact G).
  apply call_arm in A. rewrite A. now destruct (fork_eqb (variant x) g).
Qed.
(** a reference to a fork's container becomes the variant of that fork *)
Theorem C88_convert : forall (c : container_kind) (w : view) (f : Fork) (kvs : list (string * value)), has_view c w -> w <> Owned -> In f (variants c) ->
  convert conversions c w (Struct f kvs) = Some (mkEnum f kvs).
Proof.
  intros c w f kvs V W F. pose proof (checked_all _ conversions_checked c w f V F) as R. cbn [convert].
  assert (H : converts c w f = true) by (destruct w; congruence). unfold converts in H. destruct (converted _ _) as [g|]; [|discriminate H].
  apply fork_eqb_eq in H. now subst.
Qed.
Definition toy_block : enum := mkEnum Bellatrix [("slot", Atom 9); ("proposer_index", Atom 2); ("parent_root", Atom 0); ("state_root", Atom 0); ("body", Struct Bellatrix [])].
Example C88_example : well_typed KBlock toy_block /\ get KBlock Owned "body" toy_block = Some (AEnum (mkEnum Bellatrix [])) /\
  get KBlock Exclusive "slot" toy_block = Some (APart (Atom 9)) /\ some_field KBody "blob_kzg_commitments" /\
  ~ In "blob_kzg_commitments" (field_names KBody Capella).
Proof.
  split.
  - split; [cbn; tauto|]. split; [reflexivity|]. intros n v H W. cbn in H. intuition; match goal with E : (_, _) = (n, v) |- _ => inversion E; subst end; try (elim W; reflexivity).
    eexists; reflexivity.
  - split; [reflexivity|]. split; [reflexivity|]. split; [exists Deneb; split; [cbn; tauto|apply memS_iff; reflexivity]|].
    intro H. apply memS_iff in H. discriminate H.
Qed.

Print Assumptions C88_read.
Print Assumptions C88_write.
Print Assumptions C88_version.
Print Assumptions C88_cast.
Print Assumptions C88_cast_mut.
Print Assumptions C88_convert.
