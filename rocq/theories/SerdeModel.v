(** Model of #[derive(serde::Serialize, serde::Deserialize)] on PanId, ShortAddress,
    ExtendedAddress and Address (header.rs:321, 361, 403, 435; feature "serde").

    What the derived code talks to is not a file format but serde's data model: serializing
    makes one call of a Serializer (with further values inside), deserializing answers the calls a
    Deserializer makes to a Visitor. [sval] is what is handed to a Serializer, [datum] what a
    Deserializer shows. serde is not available in the sandbox: the derived code and serde's
    implementations for integers are modelled from their documentation (serde 1.0).
    Simplification: of the errors only the kind is kept ([de::Error] constructors). *)
From Coq Require Import List Arith NArith ZArith Bool String.
From Verif Require Import Types.
Import ListNotations.
Open Scope N_scope.
Open Scope list_scope.

(** Calls of a Serializer: serialize_u16, serialize_u64, serialize_newtype_struct(name, value),
    serialize_tuple_variant(name, index, variant, len) with its fields. *)
Inductive sval :=
| S_u16 (v : N)
| S_u64 (v : N)
| S_newtype (name : string) (x : sval)
| S_tuple_variant (enum : string) (index : N) (variant : string) (fields : list sval).

(** Calls to a Visitor: visit_u8 .. visit_u64, visit_i8 .. visit_i64, visit_str, visit_bytes (the
    octets of a text, as the text), visit_newtype_struct, visit_seq, visit_enum (the variant's
    identifier and, by tuple_variant, its fields), and every other call. *)
Inductive datum :=
| D_unsigned (v : N)
| D_signed (v : Z)
| D_str (s : string)
| D_bytes (s : string)
| D_newtype (d : datum)
| D_seq (ds : list datum)
| D_enum (ident : datum) (fields : list datum)
| D_other.

Inductive de_error := InvalidType | InvalidValue | InvalidLength (n : nat) | UnknownVariant.
Definition dres (A : Type) := (A + de_error)%type.

(** serde's Serialize for u16 and u64 under the derived Serialize of PanId(pub u16),
    ShortAddress(pub u16), ExtendedAddress(pub u64): header.rs:321-323, 361-364, 403-405 *)
Definition serialize_pan_id (p : PanId) : sval := S_newtype "PanId" (S_u16 p).
Definition serialize_short (a : ShortAddress) : sval := S_newtype "ShortAddress" (S_u16 a).
Definition serialize_extended (a : ExtendedAddress) : sval := S_newtype "ExtendedAddress" (S_u64 a).
(** Serialize for Address, header.rs:435-441: variants in order of declaration *)
Definition serialize_address (a : Address) : sval :=
  match a with
  | Short p s => S_tuple_variant "Address" 0 "Short" [serialize_pan_id p; serialize_short s]
  | Extended p x => S_tuple_variant "Address" 1 "Extended" [serialize_pan_id p; serialize_extended x]
  end.

(** serde's Deserialize for u16 ([bits] = 16) and u64 (64): any integer in range *)
Definition deserialize_uint (bits : N) (d : datum) : dres N :=
  match d with
  | D_unsigned v => if v <? 2 ^ bits then inl v else inr InvalidValue
  | D_signed v =>
      if ((0 <=? v) && (v <? 2 ^ Z.of_N bits))%Z then inl (Z.to_N v) else inr InvalidValue
  | _ => inr InvalidType
  end.
(** derived Deserialize of a newtype struct: visit_newtype_struct, and visit_seq, which takes
    the first element *)
Definition deserialize_newtype (bits : N) (d : datum) : dres N :=
  match d with
  | D_newtype x => deserialize_uint bits x
  | D_seq [] => inr (InvalidLength 0)
  | D_seq (x :: _) => deserialize_uint bits x
  | _ => inr InvalidType
  end.
(** header.rs:321-323, 361-364, 403-405 *)
Definition deserialize_pan_id : datum -> dres PanId := deserialize_newtype 16.
Definition deserialize_short : datum -> dres ShortAddress := deserialize_newtype 16.
Definition deserialize_extended : datum -> dres ExtendedAddress := deserialize_newtype 64.

(** the derived __Field of Address: false is Short, true is Extended, header.rs:435-441 *)
Definition deserialize_variant (d : datum) : dres bool :=
  match d with
  | D_unsigned v => if v =? 0 then inl false else if v =? 1 then inl true else inr InvalidValue
  | D_str s | D_bytes s =>
      if String.eqb s "Short" then inl false
      else if String.eqb s "Extended" then inl true else inr UnknownVariant
  | _ => inr InvalidType
  end.
(** tuple_variant(2, visitor) and its visit_seq: what follows the second element is left to the
    format *)
Definition deserialize_pair {A} (second : datum -> dres A) (ds : list datum) : dres (PanId * A) :=
  match ds with
  | [] => inr (InvalidLength 0)
  | x :: r =>
      match deserialize_pan_id x with
      | inr e => inr e
      | inl p =>
          match r with
          | [] => inr (InvalidLength 1)
          | y :: _ => match second y with inr e => inr e | inl a => inl (p, a) end
          end
      end
  end.
(** Deserialize for Address, header.rs:435-441 *)
Definition deserialize_address (d : datum) : dres Address :=
  match d with
  | D_enum ident fields =>
      match deserialize_variant ident with
      | inr e => inr e
      | inl false =>
          match deserialize_pair deserialize_short fields with
          | inr e => inr e | inl (p, a) => inl (Short p a) end
      | inl true =>
          match deserialize_pair deserialize_extended fields with
          | inr e => inr e | inl (p, a) => inl (Extended p a) end
      end
  | _ => inr InvalidType
  end.
