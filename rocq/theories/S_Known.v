(** The constants that can be written: those whose values use only what the
    bindings have. *)
Require Import Coq.Strings.String Coq.Lists.List.
From Verif Require Import Base M_Type M_Ir M_Library M_Bindings S_Fields.
Import ListNotations.
Open Scope string_scope.

Definition struct_known (b : Bindings) (p : string) : Prop := exists q s, ends_at b p q /\ In s (for_items (b_struct_map b) q).
Definition enum_known (b : Bindings) (p : string) : Prop := exists e, In e (for_items (b_enum_map b) p).
(** Types that have their limits in [stdint.h]. *)
Definition limited : list string :=
  ["u8"; "u16"; "u32"; "u64"; "i8"; "i16"; "i32"; "i64";
   "uint8_t"; "uint16_t"; "uint32_t"; "uint64_t"; "int8_t"; "int16_t"; "int32_t"; "int64_t";
   "NonZeroU8"; "NonZeroU16"; "NonZeroU32"; "NonZeroU64"; "NonZeroI8"; "NonZeroI16"; "NonZeroI32"; "NonZeroI64"].
Inductive known (b : Bindings) : Literal -> Prop :=
| kn_text : forall s, known b (LExpr s)
| kn_name : forall n, known b (LPath None n)
| kn_struct_constant : forall p e n, struct_known b p -> known b (LPath (Some (p, e)) n)
| kn_variant : forall p e n, enum_known b p -> known b (LPath (Some (p, e)) n)
| kn_limit : forall p e n, In p limited -> In n ["MAX"; "MIN"] -> known b (LPath (Some (p, e)) n)
| kn_unary : forall o v, known b v -> known b (LUnary o v)
| kn_binary : forall x o y, known b x -> known b y -> known b (LBin x o y)
| kn_field : forall v f, known b v -> known b (LField v f)
| kn_struct : forall p e fs, struct_known b p -> known b (LStruct p e fs)
| kn_cast : forall t v, known b v -> known b (LCast t v)
| kn_array : forall l, Forall (known b) l -> known b (LArray l).
