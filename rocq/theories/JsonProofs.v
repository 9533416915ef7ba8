(** * Lemmas on JSON decoding *)
From Coq Require Import String.
From Verif Require Import Base Types Trees Json SpecJson.

Scheme written_mut := Induction for written Sort Prop with written_fields_mut := Induction for written_fields Sort Prop.

Fixpoint find_field (n : string) (fs : list (string * schema)) : option schema :=
  match fs with [] => None | (k, s) :: t => if String.eqb k n then Some s else find_field n t end.

(** could a text of [s] decode as [g]? [subsumes]: every text of [s] does *)
Fixpoint fits (g s : schema) {struct g} : bool :=
  match g with
  | STy _ => true
  | SRec gs => match s with
               | STy _ => true
               | SRec fs => forallb (fun p => match find_field (fst p) fs with Some s' => fits (snd p) s' | None => false end) gs
               end
  end.
Fixpoint subsumes (g s : schema) {struct g} : bool :=
  match g with
  | STy a => match s with STy b => String.eqb a b | SRec _ => false end
  | SRec gs => match s with
               | STy _ => false
               | SRec fs => forallb (fun p => match find_field (fst p) fs with Some s' => subsumes (snd p) s' | None => false end) gs
               end
  end.

Section S.
Variable leaf : string -> json -> bool.

Lemma lookup_written : forall fs kvs, written_fields leaf fs kvs -> forall n,
  match find_field n fs with
  | Some s => exists v, lookup n kvs = Some v /\ written leaf s v
  | None => lookup n kvs = None
  end.
Proof.
  induction 1 as [|k s v fs kvs Hw _ IH]; intros n; cbn [find_field lookup]; [reflexivity|].
  destruct (String.eqb k n) eqn:Ek; [exists v; split; [reflexivity|exact Hw]|apply IH].
Qed.

Lemma schema_rect2 (P : schema -> Prop) :
  (forall ty, P (STy ty)) -> (forall fs, (forall p, In p fs -> P (snd p)) -> P (SRec fs)) -> forall s, P s.
Proof.
  intros Ht Hr. fix IH 1. intros [ty|fs]; [apply Ht|apply Hr].
  induction fs as [|q t IHt]; intros p Hin; [destruct Hin|].
  destruct Hin as [<-|Hin]; [apply IH|apply IHt; exact Hin].
Qed.

Lemma decodes_fits : forall g s v, written leaf s v -> decodes leaf g v = true -> fits g s = true.
Proof.
  induction g as [ty|gs IH] using schema_rect2; intros s v Hw Hd; [reflexivity|].
  destruct Hw as [ty v _|fs kvs Hw]; [reflexivity|].
  cbn [fits]. cbn [decodes] in Hd. rewrite forallb_forall in *. intros p Hp. specialize (Hd p Hp).
  pose proof (lookup_written fs kvs Hw (fst p)) as Hl.
  destruct (find_field (fst p) fs) as [s'|].
  - destruct Hl as [v' [Hl Hw']]. rewrite Hl in Hd. exact (IH p Hp s' v' Hw' Hd).
  - rewrite Hl in Hd. exact Hd.
Qed.

Lemma subsumes_decodes : forall g s v, written leaf s v -> subsumes g s = true -> decodes leaf g v = true.
Proof.
  induction g as [ty|gs IH] using schema_rect2; intros s v Hw Hs.
  - destruct Hw as [ty' v Hl|fs kvs Hw]; cbn [subsumes] in Hs; [|discriminate].
    apply String.eqb_eq in Hs as ->. exact Hl.
  - destruct Hw as [ty v _|fs kvs Hw]; cbn [subsumes] in Hs; [discriminate|].
    cbn [decodes]. rewrite forallb_forall in *. intros p Hp. specialize (Hs p Hp).
    pose proof (lookup_written fs kvs Hw (fst p)) as Hl.
    destruct (find_field (fst p) fs) as [s'|]; [|discriminate].
    destruct Hl as [v' [Hl Hw']]. rewrite Hl. exact (IH p Hp s' v' Hw' Hs).
Qed.

Lemma lookup_except bad : forall fs kvs, written_except leaf bad fs kvs -> forall n,
  match find_field n fs with
  | Some s => exists v, lookup n kvs = Some v /\ (if String.eqb n bad then decodes leaf s v = false else written leaf s v)
  | None => lookup n kvs = None
  end.
Proof.
  induction 1 as [s v fs kvs Hb Hw|k s v fs kvs Hk Hw He IH]; intros n; cbn [find_field lookup].
  - destruct (String.eqb bad n) eqn:Ek.
    + apply String.eqb_eq in Ek as ->. rewrite String.eqb_refl. exists v. split; [reflexivity|exact Hb].
    + pose proof (lookup_written fs kvs Hw n) as Hl. destruct (find_field n fs); [|exact Hl].
      rewrite String.eqb_sym, Ek. exact Hl.
  - destruct (String.eqb k n) eqn:Ek; [|apply IH].
    apply String.eqb_eq in Ek as ->. apply String.eqb_neq in Hk. rewrite Hk. exists v. split; [reflexivity|exact Hw].
Qed.


Lemma except_own bad fs kvs s :
  written_except leaf bad fs kvs -> find_field bad fs = Some s -> In (bad, s) fs -> decodes leaf (SRec fs) (JObj kvs) = false.
Proof.
  intros He Hf Hin. pose proof (lookup_except bad fs kvs He bad) as Hl. rewrite Hf, String.eqb_refl in Hl.
  destruct Hl as [v [Hl Hb]]. cbn [decodes]. apply not_true_iff_false. intro H. rewrite forallb_forall in H.
  specialize (H _ Hin). cbn [fst snd] in H. rewrite Hl, Hb in H. discriminate.
Qed.

Lemma except_other bad fs kvs gs :
  written_except leaf bad fs kvs -> find_field bad gs = None -> subsumes (SRec gs) (SRec fs) = true -> decodes leaf (SRec gs) (JObj kvs) = true.
Proof.
  intros He Hg Hs. cbn [subsumes] in Hs. cbn [decodes]. rewrite forallb_forall in *. intros p Hp. specialize (Hs p Hp).
  pose proof (lookup_except bad fs kvs He (fst p)) as Hl.
  destruct (find_field (fst p) fs) as [s'|]; [|discriminate]. destruct Hl as [v [Hl Hw]]. rewrite Hl.
  destruct (String.eqb (fst p) bad) eqn:Eb.
  - apply String.eqb_eq in Eb. exfalso. clear -Hp Hg Eb. subst bad. destruct p as [n s0]. cbn [fst] in Hg. induction gs as [|[k s] gs IH]; [destruct Hp|]. cbn [find_field] in Hg.
    destruct (String.eqb k n) eqn:Ek; [discriminate|]. destruct Hp as [E|Hp]; [|exact (IH Hg Hp)].
    injection E as -> ->. rewrite String.eqb_refl in Ek. discriminate.
  - exact (subsumes_decodes _ _ _ Hw Hs).
Qed.
End S.
