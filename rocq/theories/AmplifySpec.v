(** How much memory a decoded message takes, and when decoding is bounded by its input (C58). *)
From Coq Require Import ZArith List Bool.
From Verif Require Import Base Schema Value Unmarshal Typing KnownTypes.
Import ListNotations.
Open Scope Z_scope.

(** The cells a value occupies: one per scalar member, list element, map key or value, pointer,
    wrapper, slice and message, and one per byte of a string, byte slice or of the unknown fields.
    A string or byte slice that aliases the input has no bytes of its own. *)
Fixpoint cells (v : val) : Z :=
  match v with
  | VNil | VInt _ => 1
  | VStr s | VBytes s => 1 + zlen s
  | VRefS _ _ | VRefB _ _ => 1
  | VPtr v | VOneof _ v => 1 + cells v
  | VList l => 1 + fold_right (fun x n => cells x + n) 0 l
  | VMap l => 1 + fold_right (fun e n => cells (fst e) + cells (snd e) + n) 0 l
  | VMsg s u h => 1 + fold_right (fun x n => cells x + n) 0 s + zlen u
                    + fold_right (fun l n => fold_right (fun x n => cells x + n) 0 l + n) 0 h
  end.

(** No map field of the schema has strings, byte slices or messages as keys or values. *)
Definition number_maps (sc : schema) : Prop :=
  forall m f kk vk, In f (md_fields (md_of sc m)) -> f_ty f = TMap kk vk -> is_num kk = true /\ is_num vk = true.

(** [K] cells per byte of input pay for a new message of the schema, and for what upstream
    decodes. *)
Record rate (sc : schema) (K : Z) : Prop := {
  rate_new : forall m, 2 + Z.of_nat (md_nslots (md_of sc m)) <= K;
  rate_dec : forall m bs v, up_dec (sc_up sc) m bs = Some v -> cells v <= K * (1 + zlen bs);
  rate_ext : forall m bs v, up_ext (sc_up sc) m bs = Some v -> cells v <= K * zlen bs }.

(** The number of messages in a decoded structpb.Struct. *)
Fixpoint Value_count (v : Value) : Z :=
  match v with
  | Value_nil => 0
  | Value_new (Value_StructValue s) => 1 + Struct_count s
  | Value_new (Value_ListValue l) => 1 + ListValue_count l
  | Value_new _ => 1
  end
with Struct_count (s : Struct) : Z :=
  match s with
  | Struct_nil => 0
  | Struct_new None => 1
  | Struct_new (Some l) => 1 + fold_right (fun e n => Value_count (snd e) + n) 0 l
  end
with ListValue_count (l : ListValue) : Z :=
  match l with
  | ListValue_nil => 0
  | ListValue_new None => 1
  | ListValue_new (Some l) => 1 + fold_right (fun e n => Value_count e + n) 0 l
  end.
