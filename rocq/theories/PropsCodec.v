(** * C93, C94: JSON text of the containers

    [K] gives the values of the preset's constants and [bits_ok] says which byte strings encode a bit vector or list; every theorem holds for all of them. *)
From Coq Require Import String Permutation.
From Verif Require Import Base BaseLemmas StLemmas Text SpecText PropsText JsonCodec JsonTable SpecCodec CodecProofs.

Lemma table_check (g : string * Ty -> bool) : forallb g containers = true -> forall name t, In (name, t) containers -> g (name, t) = true.
Proof. intros H name t Hin. rewrite forallb_forall in H. exact (H _ Hin). Qed.
Lemma containers_sound name t : In (name, t) containers -> sound_ty t = true.
Proof. apply (table_check (fun p => sound_ty (snd p))). vm_compute. reflexivity. Qed.
Definition excepted (name : string) : bool := existsb (String.eqb name) exceptions.
Lemma excepted_in name : excepted name = true <-> In name exceptions.
Proof.
  unfold excepted. rewrite existsb_exists. split.
  - intros (x & Hx & He). apply String.eqb_eq in He. subst. exact Hx.
  - intros H. exists name. split; [exact H|apply String.eqb_refl].
Qed.
Lemma containers_attributed name t : In (name, t) containers -> ~ In name exceptions -> attributed t = true.
Proof.
  intros Hin Hn. assert (H : (excepted name || attributed t) = true).
  { refine (table_check (fun p => excepted (fst p) || attributed (snd p)) _ name t Hin). vm_compute. reflexivity. }
  apply orb_true_iff in H as [H|H]; [|exact H]. apply excepted_in in H. contradiction.
Qed.
Lemma containers_lacking name t : In (name, t) containers -> In name exceptions -> lacking t = true.
Proof.
  intros Hin Hn. assert (H : (negb (excepted name) || lacking t) = true).
  { refine (table_check (fun p => negb (excepted (fst p)) || lacking (snd p)) _ name t Hin). vm_compute. reflexivity. }
  apply orb_true_iff in H as [H|H]; [|exact H]. apply excepted_in in Hn. rewrite Hn in H. discriminate.
Qed.

(** C93: writing a container and reading the text back yields the same container *)
Theorem C93_roundtrip : forall K bits_ok name t v, In (name, t) containers -> holds K bits_ok t v -> read K bits_ok true t (write t v) = Some v.
Proof. intros K bits_ok name t v Hin H. apply typed_iff in H. rewrite (roundtrip K bits_ok true t (containers_sound _ _ Hin) v H). reflexivity. Qed.
(** two different containers never have the same text *)
Theorem C93_injective : forall K bits_ok name t v w, In (name, t) containers -> holds K bits_ok t v -> holds K bits_ok t w -> write t v = write t w -> v = w.
Proof.
  intros K bits_ok name t v w Hin Hv Hw H. apply (C93_roundtrip K bits_ok name t) in Hv; [|exact Hin]. apply (C93_roundtrip K bits_ok name t) in Hw; [|exact Hin]. congruence.
Qed.
(** whatever text is read, integers fit their types and lists, vectors and byte strings have a permitted length *)
Theorem C93_validated : forall K bits_ok name t borrowed j v, In (name, t) containers -> read K bits_ok borrowed t j = Some v -> holds K bits_ok t v.
Proof. intros K bits_ok name t bw j v _ H. apply typed_iff. eapply read_typed; eauto. Qed.
(** the order of the members does not matter and further members are ignored *)
Theorem C93_order : forall K bits_ok name t borrowed kvs extra kvs', In (name, t) containers ->
  NoDup (map fst kvs') -> Permutation kvs' (kvs ++ extra) -> (forall fs k, t = TRec fs -> In k (map fst extra) -> ~ In k (map fst fs)) ->
  read K bits_ok borrowed t (VObj kvs') = read K bits_ok borrowed t (VObj kvs).
Proof.
  intros K bits_ok name t bw kvs extra kvs' Hin Hd Hp He.
  assert (Hr : match t with TRec _ => true | _ => false end = true).
  { refine (table_check (fun p => match snd p with TRec _ => true | _ => false end) _ name t Hin). vm_compute. reflexivity. }
  destruct t as [| | | | | | |fs]; try discriminate. apply read_reorder with (extra := extra); auto.
Qed.
(** an object in which some member is missing, or occurs twice, is refused *)
Theorem C93_members : forall K bits_ok name fs borrowed kvs k, In (name, TRec fs) containers -> In k (map fst fs) ->
  length (filter (fun p => String.eqb (fst p) k) kvs) <> 1%nat -> read K bits_ok borrowed (TRec fs) (VObj kvs) = None.
Proof.
  intros K bits_ok name fs bw kvs k _ Hk Hn. apply read_missing with (k := k); [exact Hk|]. intros x Hx. apply Hn.
  replace (length (filter _ kvs)) with (length (entries k kvs)); [rewrite Hx; reflexivity|]. clear.
  induction kvs as [|[k' x] r IH]; [reflexivity|]. cbn [entries filter fst]. destruct (String.eqb k' k); cbn [length]; congruence.
Qed.
(** C93 fails for readers that hand out owned strings ([serde_json::from_reader], [from_value]): a container with a non-empty list of numbers is refused *)
Theorem C93_reader_refuted : forall K bits_ok name t v, In (name, t) containers -> holds K bits_ok t v -> has_number_list t v = true ->
  read K bits_ok false t (write t v) = None.
Proof. intros K bits_ok name t v Hin H Hl. apply typed_iff in H. rewrite (roundtrip K bits_ok false t (containers_sound _ _ Hin) v H), Hl. reflexivity. Qed.
(** ... and for them it holds of all other containers *)
Theorem C93_reader_partial : forall K bits_ok name t v, In (name, t) containers -> holds K bits_ok t v -> has_number_list t v = false ->
  read K bits_ok false t (write t v) = Some v.
Proof. intros K bits_ok name t v Hin H Hl. apply typed_iff in H. rewrite (roundtrip K bits_ok false t (containers_sound _ _ Hin) v H), Hl. reflexivity. Qed.

(** C94: the text written is the text the beacon API prescribes *)
Theorem C94_written_partial : forall K bits_ok name t v, In (name, t) containers -> ~ In name exceptions -> holds K bits_ok t v ->
  api_text K bits_ok t v (write t v).
Proof. intros K bits_ok name t v Hin Hn H. apply typed_iff in H. apply write_api; [eapply containers_attributed; eauto|eapply containers_sound; eauto|exact H]. Qed.
(** every text the API permits for a value is read as that value *)
Theorem C94_read_partial : forall K bits_ok name t v j, In (name, t) containers -> ~ In name exceptions -> api_text K bits_ok t v j -> read K bits_ok true t j = Some v.
Proof. intros K bits_ok name t v j Hin Hn H. apply read_api; [eapply containers_attributed; eauto|exact H]. Qed.
(** C94 fails for the containers in [exceptions], all light client updates among them: no text the API permits is accepted *)
Theorem C94_read_refuted : forall K bits_ok name t v j borrowed, In (name, t) containers -> In name exceptions -> api_text K bits_ok t v j -> read K bits_ok borrowed t j = None.
Proof. intros K bits_ok name t v j bw Hin Hn H. eapply lacking_refuses; [eapply containers_lacking; eauto|exact H]. Qed.

(** the members are those the specifications list, in their order *)
Definition misnamed : string := "electra_ExecutionLayerWithdrawalRequest".
Fixpoint same_words (a b : list string) : bool :=
  match a, b with [], [] => true | x :: r, y :: s => String.eqb x y && same_words r s | _, _ => false end.
Lemma same_words_eq a : forall b, same_words a b = true -> a = b.
Proof.
  induction a as [|x a IH]; intros [|y b] H; try discriminate; [reflexivity|]. cbn [same_words] in H. apply andb_true_iff in H as [H1 H2]. apply String.eqb_eq in H1. f_equal; auto.
Qed.
Theorem C94_members_partial : forall name t, In (name, t) containers -> name <> misnamed ->
  exists fs, t = TRec fs /\ In (name, map fst fs) members.
Proof.
  intros name t Hin Hn.
  assert (H : (String.eqb name misnamed || match t with TRec fs => existsb (fun m => String.eqb (fst m) name && same_words (snd m) (map fst fs)) members | _ => false end) = true).
  { refine (table_check (fun p => String.eqb (fst p) misnamed || match snd p with TRec fs => existsb (fun m => String.eqb (fst m) (fst p) && same_words (snd m) (map fst fs)) members | _ => false end) _ name t Hin).
    vm_compute. reflexivity. }
  apply orb_true_iff in H as [H|H]; [apply String.eqb_eq in H; contradiction|]. destruct t as [| | | | | | |fs]; try discriminate. exists fs. split; [reflexivity|].
  apply existsb_exists in H as ([m ws] & Hm & He). cbn [fst snd] in He. apply andb_true_iff in He as [H1 H2]. apply String.eqb_eq in H1. apply same_words_eq in H2. subst. exact Hm.
Qed.
(** C94 fails for the withdrawal request of electra: an object with exactly the members the specification lists is refused *)
Theorem C94_members_refuted : forall K bits_ok t kvs borrowed ws, In (misnamed, t) containers -> In (misnamed, ws) members -> map fst kvs = ws ->
  read K bits_ok borrowed t (VObj kvs) = None.
Proof.
  intros K bits_ok t kvs bw ws Ht Hw Hk.
  assert (E : match t with TRec fs => existsb (String.eqb "pubkey") (map fst fs) | _ => false end = true).
  { assert (H : (negb (String.eqb misnamed misnamed) || match t with TRec fs => existsb (String.eqb "pubkey") (map fst fs) | _ => false end) = true).
    { refine (table_check (fun p => negb (String.eqb (fst p) misnamed) || match snd p with TRec fs => existsb (String.eqb "pubkey") (map fst fs) | _ => false end) _ misnamed t Ht).
      vm_compute. reflexivity. }
    rewrite String.eqb_refl in H. exact H. }
  assert (W : existsb (String.eqb "pubkey") ws = false).
  { assert (H : forallb (fun m => negb (String.eqb (fst m) misnamed) || negb (existsb (String.eqb "pubkey") (snd m))) members = true) by (vm_compute; reflexivity).
    rewrite forallb_forall in H. specialize (H _ Hw). cbn [fst snd] in H. rewrite String.eqb_refl in H. apply negb_true_iff in H. exact H. }
  destruct t as [| | | | | | |fs]; try discriminate. apply existsb_exists in E as (k & Hin & Hx). apply String.eqb_eq in Hx. subst k.
  apply read_missing with (k := "pubkey"%string); [exact Hin|]. intros x. rewrite entries_none; [discriminate|]. rewrite Hk. intros Hp.
  assert (existsb (String.eqb "pubkey") ws = true); [|congruence]. apply existsb_exists. exists "pubkey"%string. auto.
Qed.

(** ** Concrete cases *)
Definition no_constants (_ : string) : N := 4.
Definition any_bits (_ : Len) (_ : bytes) : bool := true.
Definition a_checkpoint : val := XSeq [XNum 7; XBytes (repeatN 171 32)].
Definition an_attestation_data : val := XSeq [XNum 9; XNum 1; XBytes (repeatN 3 32); a_checkpoint; a_checkpoint].
Definition an_indexed_attestation : val := XSeq [XSeq [XNum 5; XNum 12]; an_attestation_data; XBytes (repeatN 255 96)].
Example C93_example :
  holds no_constants any_bits j_phase0_IndexedAttestation an_indexed_attestation
  /\ has_number_list j_phase0_IndexedAttestation an_indexed_attestation = true
  /\ existsb (String.eqb "phase0_IndexedAttestation") (map fst containers) = true
  /\ read no_constants any_bits false j_phase0_IndexedAttestation (write j_phase0_IndexedAttestation an_indexed_attestation) = None
  /\ read no_constants any_bits true j_phase0_IndexedAttestation (write j_phase0_IndexedAttestation an_indexed_attestation) = Some an_indexed_attestation
  /\ write j_phase0_Checkpoint a_checkpoint = VObj [("epoch"%string, VText (codes "7")); ("root"%string, VText (codes "0xabababababababababababababababababababababababababababababababab"))].
Proof. split; [apply typed_iff; vm_compute; reflexivity|]. repeat split; vm_compute; reflexivity. Qed.
Definition a_selection : jv := VObj [("slot"%string, VText (codes "12")); ("subcommittee_index"%string, VText (codes "3"))].
Example C94_example :
  api_text no_constants any_bits j_altair_SyncAggregatorSelectionData (XSeq [XNum 12; XNum 3]) a_selection
  /\ read no_constants any_bits true j_altair_SyncAggregatorSelectionData a_selection = None
  /\ write j_altair_SyncAggregatorSelectionData (XSeq [XNum 12; XNum 3]) = VObj [("slot"%string, VNum 12); ("subcommittee_index"%string, VNum 3)]
  /\ existsb (fun p => String.eqb (fst p) misnamed) containers = true /\ existsb (fun p => String.eqb (fst p) misnamed) members = true.
Proof.
  split; [|repeat split; vm_compute; reflexivity]. apply api_rec. split.
  - apply nodupb_ok. vm_compute. reflexivity.
  - repeat split; eexists; (split; [cbn; eauto|]); (split; [reflexivity|]); apply dec_denotes_iff; (split; [discriminate|]); (split; [repeat constructor; vm_compute; discriminate|vm_compute; reflexivity]).
Qed.

Print Assumptions C93_roundtrip.
Print Assumptions C93_injective.
Print Assumptions C93_validated.
Print Assumptions C93_order.
Print Assumptions C93_members.
Print Assumptions C93_reader_refuted.
Print Assumptions C93_reader_partial.
Print Assumptions C94_written_partial.
Print Assumptions C94_read_partial.
Print Assumptions C94_read_refuted.
Print Assumptions C94_members_partial.
Print Assumptions C94_members_refuted.
