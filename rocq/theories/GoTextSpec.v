(** Comparing the text the modelled generator prints with the text of the
    *_vtproto.pb.go files of /repo: a message with the names protogen gave its
    parts, and the comparison. *)
From Coq Require Import ZArith List Bool String.
From Verif Require Import Base Schema GoSyntax GenSize KnownSpec.
Import ListNotations.
Open Scope string_scope.
Open Scope Z_scope.

(** A message of a *.pb.go file: its Go name, its index, its descriptor, the
    struct members in order, and for each field of a oneof its number, the
    name of the wrapper's member and the wrapper's name. *)
Record gmsg : Type := mkG {
  g_name : string;
  g_index : nat;
  g_desc : mdesc;
  g_slots : list string;
  g_members : list (Z * (string * string));
  g_protos : list (Z * string) }.     (* names of the fields in the .proto file *)

Fixpoint find_num {A} (d : A) (n : Z) (l : list (Z * A)) : A :=
  match l with
  | [] => d
  | (k, a) :: l' => if k =? n then a else find_num d n l'
  end.

Fixpoint find_nat {A} (n : nat) (l : list (nat * A)) : option A :=
  match l with
  | [] => None
  | (k, a) :: l' => if Nat.eqb k n then Some a else find_nat n l'
  end.

(** The names of a message in a package that is not one of well-known types;
    [casts]: the well-known types the file mentions. *)
Definition names_of (casts : list (nat * string)) (g : gmsg) : names :=
  mkN (fun s => nth s (g_slots g) "?")
      (fun n => fst (find_num ("?", "?") n (g_members g)))
      (fun n => snd (find_num ("?", "?") n (g_members g)))
      (fun m => match find_nat m casts with Some s => s | None => "?" end)
      (fun n => snd (find_num ("?", "?") n (g_members g)))
      (fun n => find_num "?" n (g_protos g)).

(** Messages of the file are local, the types it casts to are well-known types. *)
Definition dispatch_of (casts : list (nat * string)) (m : nat) : dispatch :=
  match find_nat m casts with Some _ => DKnown | None => DLocal end.

(** equal.go:65-67 and marshalto.go:609-611 sort the fields of a message by
    number, in place; features run in alphabetical order (features.go:39-41), so
    size and unmarshal see them sorted if equal or marshal is among the features. *)
Definition sorted_desc (md : mdesc) : mdesc :=
  mkM (sort_fields (md_fields md)) (md_nslots md) (md_keep md) (md_ext md) (md_pool md) (md_foreign md).

(** The text of the methods of all messages of a file. *)
Definition printed (gen : (nat -> dispatch) -> names -> string -> nat -> mdesc -> string)
    (casts : list (nat * string)) (l : list gmsg) : string :=
  String.concat "" (map (fun g => gen (dispatch_of casts) (names_of casts g) (g_name g)
                                      (g_index g) (sorted_desc (g_desc g))) l).

(** The texts of a file, one after the other, without white space. *)
Definition found (l : list string) : string := String.concat "" (map squeeze l).

(** The well-known types: all their packages' types are well-known and local (wrap=true,
    /repo/Makefile:38-50), so casts drop the package and the cases of a type switch name the
    upstream package. *)
Definition known_names : list (nat * string) := [(13%nat, "Struct"); (14%nat, "Value"); (15%nat, "ListValue")].
Definition names_known (pkg : string) (g : gmsg) : names :=
  mkN (fun s => nth s (g_slots g) "?")
      (fun n => fst (find_num ("?", "?") n (g_members g)))
      (fun n => pkg ++ "." ++ snd (find_num ("?", "?") n (g_members g)))
      (fun m => match find_nat m known_names with Some s => s | None => "?" end)
      (fun n => snd (find_num ("?", "?") n (g_members g)))
      (fun n => find_num "?" n (g_protos g)).
Definition printed_known (gen : (nat -> dispatch) -> names -> string -> nat -> mdesc -> string)
    (pkg : string) (l : list gmsg) : string :=
  String.concat "" (map (fun g => gen (fun _ => DKnown) (names_known pkg g) (g_name g)
                                      (g_index g) (sorted_desc (g_desc g))) l).

(** Their Go names; the numbers are those of [known_sc] in PropsKnown.v. *)
Definition k_any := [mkG "Any" 2 Any_desc ["TypeUrl"; "Value"] [] []].
Definition k_duration := [mkG "Duration" 0 Timestamp_desc ["Seconds"; "Nanos"] [] []].
Definition k_empty := [mkG "Empty" 1 Empty_desc [] [] []].
Definition k_field_mask := [mkG "FieldMask" 3 FieldMask_desc ["Paths"] [] []].
Definition k_struct :=
  [mkG "Struct" 13 (Struct_desc 14) ["Fields"] [] [];
   mkG "Value" 14 (Value_desc 13 15) ["Kind"]
     [(1, ("NullValue", "Value_NullValue")); (2, ("NumberValue", "Value_NumberValue"));
      (3, ("StringValue", "Value_StringValue")); (4, ("BoolValue", "Value_BoolValue"));
      (5, ("StructValue", "Value_StructValue")); (6, ("ListValue", "Value_ListValue"))] [];
   mkG "ListValue" 15 (ListValue_desc 14) ["Values"] [] []].
Definition k_timestamp := [mkG "Timestamp" 0 Timestamp_desc ["Seconds"; "Nanos"] [] []].
Definition k_wrappers :=
  [mkG "DoubleValue" 4 (wrapper_desc KDouble) ["Value"] [] []; mkG "FloatValue" 5 (wrapper_desc KFloat) ["Value"] [] [];
   mkG "Int64Value" 6 (wrapper_desc KInt64) ["Value"] [] []; mkG "UInt64Value" 7 (wrapper_desc KUint64) ["Value"] [] [];
   mkG "Int32Value" 8 (wrapper_desc KInt32) ["Value"] [] []; mkG "UInt32Value" 9 (wrapper_desc KUint32) ["Value"] [] [];
   mkG "BoolValue" 10 (wrapper_desc KBool) ["Value"] [] []; mkG "StringValue" 11 (wrapper_desc KString) ["Value"] [] [];
   mkG "BytesValue" 12 (wrapper_desc KBytes) ["Value"] [] []].
