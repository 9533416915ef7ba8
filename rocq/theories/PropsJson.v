(** * C73: JSON of the fork-generic containers *)
From Coq Require Import String Sorting.Sorted.
From Verif Require Import Base Types Trees Json SpecJson JsonProofs.
Local Open Scope string_scope.

Ltac no_fit Hw :=
  match goal with
  | |- context [decodes ?l ?g ?v] =>
      let H := fresh in
      destruct (decodes l g v) eqn:H; [apply (decodes_fits l g _ v Hw) in H; vm_compute in H; discriminate H|clear H]
  end.
Ltac fit Hw :=
  match goal with
  | |- context [decodes ?l ?g ?v] => rewrite (subsumes_decodes l g _ v Hw) by (vm_compute; reflexivity)
  end.

(** C73 — The JSON of a container of any fork up to deneb is read back as a container of that fork, and of no other: for every container kind, every fork
    in which it exists, whatever the values in the fields and whatever the decoders of their types. *)
Theorem C73_variant : forall leaf c f v,
  exists_in c f = true -> f <> Electra -> written leaf (schema_of c f) v -> read_variant leaf c v = Some f.
Proof.
  intros leaf c f v He Hn Hw. unfold read_variant.
  destruct c; destruct f; try (exfalso; apply Hn; reflexivity); try discriminate He; cbn [variants find]; clear He Hn;
    repeat (first [fit Hw; reflexivity | no_fit Hw]).
Qed.

(** What is read is always the newest fork the text fits; text that fits none is refused. *)
Theorem C73_newest : forall leaf c v,
  match read_variant leaf c v with
  | Some f => In f (variants c) /\ decodes leaf (schema_of c f) v = true /\
              (forall g, In g (variants c) -> g <> f -> fork_le f g = true -> decodes leaf (schema_of c g) v = false)
  | None => forall g, In g (variants c) -> decodes leaf (schema_of c g) v = false
  end.
Proof.
  intros leaf c v. unfold read_variant.
  assert (Hsort : forall l, (forall a, In a l -> In a (variants c)) -> StronglySorted (fun a b => fork_le a b = false) l ->
    match find (fun f => decodes leaf (schema_of c f) v) l with
    | Some f => In f l /\ decodes leaf (schema_of c f) v = true /\
                (forall g, In g l -> g <> f -> fork_le f g = true -> decodes leaf (schema_of c g) v = false)
    | None => forall g, In g l -> decodes leaf (schema_of c g) v = false
    end).
  { induction l as [|a l IH]; intros Hin Hs; cbn [find]; [intros g []|].
    inversion Hs as [|a' l' Hs' Hall]; subst. destruct (decodes leaf (schema_of c a) v) eqn:Ed.
    - split; [left; reflexivity|split; [exact Ed|]]. intros g [->|Hg] Hne Hle; [congruence|].
      rewrite Forall_forall in Hall. rewrite (Hall g Hg) in Hle. discriminate.
    - specialize (IH (fun b Hb => Hin b (or_intror Hb)) Hs'). destruct (find _ l) as [f|].
      + destruct IH as [Hf [Hd Hrest]]. split; [right; exact Hf|split; [exact Hd|]].
        intros g [<-|Hg] Hne Hle; [exact Ed|exact (Hrest g Hg Hne Hle)].
      + intros g [<-|Hg]; [exact Ed|exact (IH g Hg)]. }
  apply Hsort; [intros a Ha; exact Ha|]. destruct c; cbn [variants]; repeat constructor.
Qed.

(** C73 — refuted for electra: the JSON of any electra state, payload or payload header is read as a deneb one; the electra fields are dropped without an
    error. *)
Theorem C73_electra_refuted : forall leaf v c, In c [KState; KPayload; KHeader] ->
  written leaf (schema_of c Electra) v -> read_variant leaf c v = Some Deneb.
Proof.
  intros leaf v c Hc Hw. unfold read_variant. cbn [In] in Hc.
  destruct Hc as [<-|[<-|[<-|[]]]]; cbn [variants find]; fit Hw; reflexivity.
Qed.

Definition fields_of (s : schema) : list (string * schema) := match s with SRec fs => fs | STy _ => [] end.

Lemma except_reads leaf c f g bad kvs :
  schema_of c f = SRec (fields_of (schema_of c f)) -> schema_of c g = SRec (fields_of (schema_of c g)) ->
  (exists s, find_field bad (fields_of (schema_of c f)) = Some s /\ In (bad, s) (fields_of (schema_of c f))) ->
  find_field bad (fields_of (schema_of c g)) = None -> subsumes (schema_of c g) (schema_of c f) = true ->
  written_except leaf bad (fields_of (schema_of c f)) kvs ->
  decodes leaf (schema_of c f) (JObj kvs) = false /\ decodes leaf (schema_of c g) (JObj kvs) = true.
Proof.
  intros Hf Hg [s [Hs Hin]] Hn Hsub He. split.
  - rewrite Hf. exact (except_own leaf bad _ _ s He Hs Hin).
  - rewrite Hg. rewrite Hf, Hg in Hsub. exact (except_other leaf bad _ _ _ He Hn Hsub).
Qed.

(** C73 — refuted for malformed input: a body, payload or payload header of a fork in which one of the fields new in that fork holds a value that does not
    decode is not refused: it is read as a container of the fork before, without that field. (A later fork cannot succeed either: it needs the same field.) *)
Theorem C73_malformed_refuted : forall leaf kvs,
  (written_except leaf "blob_kzg_commitments" (fields_of (schema_of KBody Deneb)) kvs -> read_variant leaf KBody (JObj kvs) = Some Capella) /\
  (written_except leaf "excess_blob_gas" (fields_of (schema_of KPayload Deneb)) kvs -> read_variant leaf KPayload (JObj kvs) = Some Capella) /\
  (written_except leaf "excess_blob_gas" (fields_of (schema_of KHeader Deneb)) kvs -> read_variant leaf KHeader (JObj kvs) = Some Capella).
Proof.
  intros leaf kvs.
  assert (G : forall c bad, In (c, bad) [(KBody, "blob_kzg_commitments"); (KPayload, "excess_blob_gas"); (KHeader, "excess_blob_gas")] ->
    written_except leaf bad (fields_of (schema_of c Deneb)) kvs -> read_variant leaf c (JObj kvs) = Some Capella).
  { intros c bad Hc He.
    assert (H : decodes leaf (schema_of c Deneb) (JObj kvs) = false /\ decodes leaf (schema_of c Capella) (JObj kvs) = true).
    { apply (except_reads leaf c Deneb Capella bad kvs); [| | | | |exact He]; cbn [In] in Hc;
        destruct Hc as [E|[E|[E|[]]]]; injection E as <- <-;
        first [reflexivity | vm_compute; reflexivity | eexists; split; [vm_compute; reflexivity|vm_compute; tauto]]. }
    destruct H as [Hd Hk]. unfold read_variant. cbn [In] in Hc.
    destruct Hc as [E|[E|[E|[]]]]; injection E as <- _; cbn [variants find]; rewrite Hd, Hk; reflexivity. }
  split; [|split]; apply G; cbn [In]; tauto.
Qed.

(** The JSON of a full block or body, of any fork, is refused where a blinded one is read. *)
Definition blinded_form (c : container_kind) : option container_kind :=
  match c with KBody => Some KBlindedBody | KBlock => Some KBlindedBlock | KSignedBlock => Some KSignedBlindedBlock | _ => None end.
Theorem C73_full_not_blinded : forall leaf c b f v,
  blinded_form c = Some b -> written leaf (schema_of c f) v -> read_variant leaf b v = None.
Proof.
  intros leaf c b f v Hb Hw. unfold read_variant.
  destruct c; try discriminate Hb; injection Hb as <-; destruct f; cbn [variants find]; repeat no_fit Hw; reflexivity.
Qed.
(** The converse fails: the JSON of every blinded block or body of bellatrix, capella or deneb is accepted where a full one is read, and comes out as an
    altair block, without its payload header. *)
Theorem C73_blinded_read_as_altair_refuted : forall leaf c b f v,
  blinded_form c = Some b -> exists_in b f = true -> f <> Electra -> written leaf (schema_of b f) v -> read_variant leaf c v = Some Altair.
Proof.
  intros leaf c b f v Hb He Hn Hw. unfold read_variant.
  destruct c; try discriminate Hb; injection Hb as <-; destruct f; try (exfalso; apply Hn; reflexivity); try discriminate He; cbn [variants find]; clear He Hn;
    repeat (first [fit Hw; reflexivity | no_fit Hw]).
Qed.

(** ** Concrete cases *)
Fixpoint sample (s : schema) : json :=
  match s with
  | STy n => JStr n
  | SRec fs => JObj (map (fun p => (fst p, sample (snd p))) fs)
  end.
(** a decoder that takes the text that is the name of the type *)
Definition named (ty : string) (v : json) : bool := match v with JStr t => String.eqb t ty | _ => false end.

Lemma sample_written : forall s, written named s (sample s).
Proof.
  induction s as [ty|fs IH] using schema_rect2; cbn [sample]; constructor; [apply String.eqb_refl|].
  induction fs as [|[n s] fs IHf]; cbn [map fst snd]; constructor.
  - apply (IH (n, s)). left. reflexivity.
  - apply IHf. intros p Hp. apply IH. right. exact Hp.
Qed.

Example C73_toy :
  (forall c f, written named (schema_of c f) (sample (schema_of c f))) /\
  read_variant named KSignedBlock (sample (schema_of KSignedBlock Altair)) = Some Altair /\
  read_variant named KPayload (sample (schema_of KPayload Electra)) = Some Deneb /\
  (let kvs := map (fun p => (fst p, if String.eqb (fst p) "blob_kzg_commitments" then JNull else sample (snd p))) (fields_of (schema_of KBody Deneb)) in
   written_except named "blob_kzg_commitments" (fields_of (schema_of KBody Deneb)) kvs).
Proof.
  split; [intros; apply sample_written|]. split; [apply C73_variant; [reflexivity|discriminate|apply sample_written]|].
  split; [apply C73_electra_refuted; [cbn; tauto|apply sample_written]|].
  cbn [fields_of schema_of body_schema map]. cbv zeta.
  unfold body_schema, fields_of. cbv [body_fields map fst snd String.eqb Ascii.eqb Bool.eqb].
  repeat (first [apply we_here; [reflexivity|] | apply we_later; [discriminate|apply sample_written|]]).
  all: repeat constructor; apply sample_written.
Qed.

Example C73_toy_blinded :
  read_variant named KBlindedBlock (sample (schema_of KBlock Deneb)) = None /\
  read_variant named KBlock (sample (schema_of KBlindedBlock Deneb)) = Some Altair.
Proof.
  split.
  - apply (C73_full_not_blinded named KBlock KBlindedBlock Deneb); [reflexivity|apply sample_written].
  - apply (C73_blinded_read_as_altair_refuted named KBlock KBlindedBlock Deneb); [reflexivity|reflexivity|discriminate|apply sample_written].
Qed.

Print Assumptions C73_variant.
Print Assumptions C73_newest.
Print Assumptions C73_electra_refuted.
Print Assumptions C73_malformed_refuted.
Print Assumptions C73_full_not_blinded.
Print Assumptions C73_blinded_read_as_altair_refuted.
