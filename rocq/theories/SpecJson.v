(** * What the JSON of a container is, independent of how it is read *)
From Coq Require Import String.
From Verif Require Import Base Types Json.

(** [written leaf s v]: [v] is the text of a value of type [s]: an object with exactly the fields of the type, in order, each the text of a value of its
    type; [leaf ty v] says that [v] is a text of a value of the plain type [ty] *)
Inductive written (leaf : string -> json -> bool) : schema -> json -> Prop :=
| written_ty ty v : leaf ty v = true -> written leaf (STy ty) v
| written_rec fields kvs : written_fields leaf fields kvs -> written leaf (SRec fields) (JObj kvs)
with written_fields (leaf : string -> json -> bool) : list (string * schema) -> list (string * json) -> Prop :=
| written_nil : written_fields leaf [] []
| written_cons n s v fields kvs : written leaf s v -> written_fields leaf fields kvs -> written_fields leaf ((n, s) :: fields) ((n, v) :: kvs).

(** the same, with one field (of the outermost object) holding a value that is not of its type *)
Inductive written_except (leaf : string -> json -> bool) (bad : string) : list (string * schema) -> list (string * json) -> Prop :=
| we_here s v fields kvs : decodes leaf s v = false -> written_fields leaf fields kvs -> written_except leaf bad ((bad, s) :: fields) ((bad, v) :: kvs)
| we_later n s v fields kvs :
    n <> bad -> written leaf s v -> written_except leaf bad fields kvs -> written_except leaf bad ((n, s) :: fields) ((n, v) :: kvs).

(** which containers exist in which fork *)
Definition exists_in (c : container_kind) (f : Fork) : bool :=
  match c with
  | KState | KBody | KBlock | KSignedBlock => true
  | KPayload | KHeader | KBlindedBody | KBlindedBlock | KSignedBlindedBlock => match f with Phase0 | Altair => false | _ => true end
  end.
