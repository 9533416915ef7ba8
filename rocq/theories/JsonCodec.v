(** * JSON text of the consensus containers (ethereum-consensus/src/serde.rs and the serde attributes of the struct definitions)

    The containers derive [serde::Serialize] and [serde::Deserialize]; JsonTable.v lists them with the attributes of their fields. This file
    models what serde's derived code, the helpers of serde.rs and serde_json do with such a description.

    Simplifications: a number literal with sign, fraction or exponent is refused by every reader here and is left out of [jv]; whitespace and string
    escapes are not modelled (the helper [seq_of_str] also refuses strings written with escapes); [FromStr for U256] (external crate) accepts further
    notations, such as hexadecimal, besides decimal digits; bit vectors and bit lists are represented by the bytes of their SSZ encoding, whose validity
    is a parameter. *)
From Coq Require Import String.
From Verif Require Import Base Types Text.

(** serde_json values *)
Inductive jv : Type := VNull | VBool (b : bool) | VNum (n : N) | VText (t : text) | VArr (l : list jv) | VObj (kvs : list (string * jv)).

(** a length: a literal or a constant of the preset *)
Inductive Size : Type := Lit (n : N) | Const (name : string).
Inductive Len : Type := Exactly (s : Size) | AtMost (s : Size) | AnyLen.

(** what the derived code knows about the type of a field *)
Inductive Ty : Type :=
| TNum (bound : N)                  (* an unsigned integer below [bound], no attribute *)
| TText (bound : N)                 (* an unsigned integer with [serde(with = as_str)] *)
| TBool
| THex (l : Len)                    (* bytes with [as_hex]: ByteVector, ByteList, roots, keys, signatures *)
| TBits (l : Len)                   (* Bitvector, Bitlist *)
| TTextSeq (l : Len) (bound : N)    (* a list of integers with [seq_of_str] *)
| TSeq (l : Len) (elem : Ty)        (* List, Vector, Vec *)
| TRec (fields : list (string * Ty)).

(** values of these types; a record is the sequence of its fields *)
Inductive val : Type := XNum (n : N) | XBool (b : bool) | XBytes (b : bytes) | XSeq (l : list val).

(** [Display] of the integers; a [U256] has at most 78 digits *)
Definition num_text (n : N) : text := dec_text 80 n.
(** [FromStr] of the integers: an optional [+], then digits, the value below the bound of the type *)
Fixpoint dec_digits (t : text) (acc : N) : option N :=
  match t with
  | [] => Some acc
  | c :: rest => if (48 <=? c) && (c <=? 57) then dec_digits rest (10 * acc + (c - 48)) else None
  end.
Definition num_parse (bound : N) (t : text) : option N :=
  match (match t with
         | [] => None
         | c :: rest => if c =? 43 then match rest with [] => None | _ => dec_digits rest 0 end else dec_digits t 0
         end) with
  | Some n => if n <? bound then Some n else None
  | None => None
  end.

Section Codec.
(** the constants of the preset, and which byte strings encode a bit vector or list of the given length *)
Variable K : string -> N.
Variable bits_ok : Len -> bytes -> bool.

Definition size_of (s : Size) : N := match s with Lit n => n | Const c => K c end.
Definition len_ok (l : Len) (n : N) : bool :=
  match l with Exactly s => n =? size_of s | AtMost s => n <=? size_of s | AnyLen => true end.

Definition typed_num (bound : N) (v : val) : bool := match v with XNum n => n <? bound | _ => false end.
(** the values a Rust variable of the type can hold *)
Fixpoint typed (t : Ty) (v : val) {struct t} : bool :=
  match t, v with
  | TNum b, _ => typed_num b v
  | TText b, _ => typed_num b v
  | TBool, XBool _ => true
  | THex l, XBytes b => forallb (fun x => x <? 256) b && len_ok l (lenN b)
  | TBits l, XBytes b => forallb (fun x => x <? 256) b && bits_ok l b
  | TTextSeq l b, XSeq vs => len_ok l (lenN vs) && forallb (typed_num b) vs
  | TSeq l e, XSeq vs => len_ok l (lenN vs) && forallb (typed e) vs
  | TRec fs, XSeq vs =>
      (fix go (fs : list (string * Ty)) (vs : list val) : bool :=
         match fs, vs with
         | [], [] => true
         | (_, t') :: fr, v' :: vr => typed t' v' && go fr vr
         | _, _ => false
         end) fs vs
  | _, _ => false
  end.

(** derived [Serialize]; serde.rs:49-56 [as_hex], 76-81 [as_str], 96-108 [seq_of_str] *)
Definition write_num (v : val) : jv := match v with XNum n => VText (num_text n) | _ => VNull end.
Fixpoint write (t : Ty) (v : val) {struct t} : jv :=
  match t, v with
  | TNum _, XNum n => VNum n
  | TText _, _ => write_num v
  | TBool, XBool b => VBool b
  | THex _, XBytes b => VText (to_hex b)
  | TBits _, XBytes b => VText (to_hex b)
  | TTextSeq _ _, XSeq vs => VArr (map write_num vs)
  | TSeq _ e, XSeq vs => VArr (map (write e) vs)
  | TRec fs, XSeq vs =>
      VObj ((fix go (fs : list (string * Ty)) (vs : list val) : list (string * jv) :=
         match fs, vs with
         | (k, t') :: fr, v' :: vr => (k, write t' v') :: go fr vr
         | _, _ => []
         end) fs vs)
  | _, _ => VNull
  end.

(** the values of all members called [k] *)
Fixpoint entries (k : string) (kvs : list (string * jv)) : list jv :=
  match kvs with
  | [] => []
  | (k', x) :: r => if String.eqb k' k then x :: entries k r else entries k r
  end.
Fixpoint map_opt {A B} (g : A -> option B) (l : list A) : option (list B) :=
  match l with
  | [] => Some []
  | x :: r => match g x, map_opt g r with Some y, Some ys => Some (y :: ys) | _, _ => None end
  end.
Definition guard (b : bool) (v : val) : option val := if b then Some v else None.

(** serde.rs:83-92 [as_str] *)
Definition read_num (bound : N) (j : jv) : option val :=
  match j with VText t => option_map XNum (num_parse bound t) | _ => None end.
(** serde.rs:58-69 [as_hex] *)
Definition read_hex (ok : bytes -> bool) (j : jv) : option val :=
  match j with
  | VText t => match try_bytes_from_hex_str t with Ok b => guard (ok b) (XBytes b) | _ => None end
  | _ => None
  end.
(** derived [Deserialize]: an object has every field exactly once and unknown members are ignored; an array has exactly the fields in order.
    [borrowed] tells whether the strings of the source live as long as the value read ([serde_json::from_str], [from_slice], [&Value]) or not
    ([from_reader], [from_value]); it matters for [seq_of_str] (serde.rs:119-133), which asks for elements of type [&str]. *)
Fixpoint read (borrowed : bool) (t : Ty) (j : jv) {struct t} : option val :=
  match t with
  | TNum b => match j with VNum n => guard (n <? b) (XNum n) | _ => None end
  | TText b => read_num b j
  | TBool => match j with VBool b => Some (XBool b) | _ => None end
  | THex l => read_hex (fun b => len_ok l (lenN b)) j
  | TBits l => read_hex (bits_ok l) j
  | TTextSeq l b =>
      match j with
      | VArr js =>
          match map_opt (fun x => if borrowed then read_num b x else None) js with
          | Some vs => guard (len_ok l (lenN vs)) (XSeq vs)
          | None => None
          end
      | _ => None
      end
  | TSeq l e =>
      match j with
      | VArr js => match map_opt (read borrowed e) js with Some vs => guard (len_ok l (lenN vs)) (XSeq vs) | None => None end
      | _ => None
      end
  | TRec fs =>
      match j with
      | VObj kvs =>
          option_map XSeq
            ((fix go (fs : list (string * Ty)) : option (list val) :=
                match fs with
                | [] => Some []
                | (k, t') :: fr =>
                    match entries k kvs with
                    | [x] => match read borrowed t' x, go fr with Some v, Some vs => Some (v :: vs) | _, _ => None end
                    | _ => None
                    end
                end) fs)
      | VArr js =>
          option_map XSeq
            ((fix go (fs : list (string * Ty)) (js : list jv) : option (list val) :=
                match fs, js with
                | [], [] => Some []
                | (_, t') :: fr, x :: jr => match read borrowed t' x, go fr jr with Some v, Some vs => Some (v :: vs) | _, _ => None end
                | _, _ => None
                end) fs js)
      | _ => None
      end
  end.
End Codec.
