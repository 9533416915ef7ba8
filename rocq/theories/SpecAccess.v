(** * What the accessors of the fork-generic types should do *)
From Coq Require Import String.
From Verif Require Import Base Types Json Access AccessTable.
Local Open Scope string_scope.

(** the fields of a container in one fork (as declared in the fork's module) and in any of the forks of the type *)
Definition field_names (c : container_kind) (f : Fork) : list string := match schema_of c f with SRec l => map fst l | STy _ => [] end.
Definition some_field (c : container_kind) (n : string) : Prop := exists f, In f (variants c) /\ In n (field_names c f).
(** the enums that exist: the signed types have no reference enums *)
Definition has_view (c : container_kind) (w : view) : Prop :=
  w = Owned \/ (c <> KSignedBlock /\ c <> KSignedBlindedBlock).
(** a value of the container of fork [f]: its fields in order; a field that is itself such a container is one of the same fork *)
Definition is_container (v : value) (f : Fork) : Prop := exists kvs, v = Struct f kvs.
Definition well_typed (c : container_kind) (x : enum) : Prop :=
  In (variant x) (variants c) /\ map fst (inner x) = field_names c (variant x) /\
  forall n v, In (n, v) (inner x) -> wrapped_kind c n <> None -> is_container v (variant x).
(** the functions of the generated tables *)
Definition get (c : container_kind) (w : view) (n : string) (x : enum) : option answer := call rows conversions c w n x.
Definition put (c : container_kind) (w : view) (n : string) (v : value) (x : enum) : option enum := write rows c w n v x.
Definition fork_accessor (f : Fork) : string :=
  match f with Phase0 => "phase0" | Altair => "altair" | Bellatrix => "bellatrix" | Capella => "capella" | Deneb => "deneb" | Electra => "electra" end.
(** what a reader of field [n] should get: the field's value, as the enum of the same fork if it is itself a fork-generic container *)
Definition answer_for (c : container_kind) (n : string) (v : value) (f : Fork) : answer :=
  match wrapped_kind c n, v with
  | Some _, Struct _ kvs => AEnum (mkEnum f kvs)
  | _, _ => APart v
  end.
