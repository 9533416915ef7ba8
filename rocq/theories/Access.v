(** * Accessors of the fork-generic types: ethereum-consensus/src/types

    Every type [X] of types/*.rs is an enum over the forks, with the enums [XRef] and [XRefMut] over references. The functions of these enums are a
    [match self] each; AccessTable.v lists them as data, this file says what they do. A value of a fork's own container is the list of its fields. *)
From Coq Require Import String.
From Verif Require Import Base Types Json.
Local Open Scope string_scope.

(** [X] itself, [XRef] or [XRefMut] *)
Inductive view : Type := Owned | Shared | Exclusive.
(** what an arm returns: [None]; [Some(inner)]; [Version::F]; (a reference to) [inner.n], perhaps in [Some]; the same inside [From::from] *)
Inductive arm : Type := Nothing | Whole | Version (f : Fork) | Part (n : string) | Wrapped (n : string).
Record row : Type := mkRow { row_name : string; row_mut : bool; row_arms : list (option Fork * arm) }.

(** field values: plain ones, and containers of a fork's module *)
Inductive value : Type := Atom (n : N) | Struct (f : Fork) (kvs : list (string * value)).
(** a value of [X], [XRef] or [XRefMut] *)
Record enum : Type := mkEnum { variant : Fork; inner : list (string * value) }.
Inductive answer : Type := ANothing | AVersion (f : Fork) | AWhole (kvs : list (string * value)) | APart (v : value) | AEnum (e : enum).

Fixpoint field_of (n : string) (kvs : list (string * value)) : option value :=
  match kvs with
  | [] => None
  | (k, v) :: t => if String.eqb k n then Some v else field_of n t
  end.
Fixpoint set_field (n : string) (v : value) (kvs : list (string * value)) : list (string * value) :=
  match kvs with
  | [] => []
  | (k, x) :: t => if String.eqb k n then (k, v) :: t else (k, x) :: set_field n v t
  end.
Definition fork_eqb (a b : Fork) : bool :=
  match a, b with
  | Phase0, Phase0 | Altair, Altair | Bellatrix, Bellatrix | Capella, Capella | Deneb, Deneb | Electra, Electra => true
  | _, _ => false
  end.
(** the arm that [match self] selects *)
Fixpoint select (f : Fork) (arms : list (option Fork * arm)) : option arm :=
  match arms with
  | [] => None
  | (None, a) :: _ => Some a
  | (Some g, a) :: t => if fork_eqb f g then Some a else select f t
  end.
(** the enum that [From::from(&inner.n)] makes, by the return types of the accessors: [message] of the signed types, [body] of the blocks,
    [execution_payload], [execution_payload_header], [latest_execution_payload_header] *)
Definition wrapped_kind (c : container_kind) (n : string) : option container_kind :=
  match c with
  | KSignedBlock => if String.eqb n "message" then Some KBlock else None
  | KSignedBlindedBlock => if String.eqb n "message" then Some KBlindedBlock else None
  | KBlock => if String.eqb n "body" then Some KBody else None
  | KBlindedBlock => if String.eqb n "body" then Some KBlindedBody else None
  | KBody => if String.eqb n "execution_payload" then Some KPayload else None
  | KBlindedBody => if String.eqb n "execution_payload_header" then Some KHeader else None
  | KState => if String.eqb n "latest_execution_payload_header" then Some KHeader else None
  | _ => None
  end.

Section Tables.
(** the tables of AccessTable.v *)
Variable rows : container_kind -> view -> list row.
Variable conversions : container_kind -> view -> list (Fork * Fork).

(** the conversion that the type of the value selects *)
Fixpoint converted (g : Fork) (l : list (Fork * Fork)) : option Fork :=
  match l with
  | [] => None
  | (a, b) :: t => if fork_eqb g a then Some b else converted g t
  end.
(** the result of an arm; [None]: ill-typed, not reached *)
Definition deliver (c : container_kind) (mutable : bool) (a : arm) (x : enum) : option answer :=
  match a with
  | Nothing => Some ANothing
  | Whole => Some (AWhole (inner x))
  | Version f => Some (AVersion f)
  | Part n => match field_of n (inner x) with Some v => Some (APart v) | None => None end
  | Wrapped n =>
      match field_of n (inner x), wrapped_kind c n with
      | Some (Struct g kvs), Some k =>
          match converted g (conversions k (if mutable then Exclusive else Shared)) with Some h => Some (AEnum (mkEnum h kvs)) | None => None end
      | _, _ => None
      end
  end.
Definition row_of (c : container_kind) (w : view) (name : string) : option row := find (fun r => String.eqb (row_name r) name) (rows c w).
(** the function [name] of the enum, called on [x] *)
Definition call (c : container_kind) (w : view) (name : string) (x : enum) : option answer :=
  match row_of c w name with
  | Some r => match select (variant x) (row_arms r) with Some a => deliver c (row_mut r) a x | None => None end
  | None => None
  end.
(** writing [v] through the reference that the function [name], which takes [&mut self], returns; nothing happens if there is none *)
Definition write (c : container_kind) (w : view) (name : string) (v : value) (x : enum) : option enum :=
  match row_of c w name with
  | Some r =>
      if row_mut r then
        match select (variant x) (row_arms r) with
        | Some (Part n) | Some (Wrapped n) => Some (mkEnum (variant x) (set_field n v (inner x)))
        | Some Nothing => Some x
        | _ => None
        end
      else None
  | None => None
  end.
(** [XRef::from(&value)] and [XRefMut::from(&mut value)] *)
Definition convert (c : container_kind) (w : view) (v : value) : option enum :=
  match v with
  | Struct g kvs => match converted g (conversions c w) with Some h => Some (mkEnum h kvs) | None => None end
  | Atom _ => None
  end.
End Tables.
