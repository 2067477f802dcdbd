(** Two versions of the same schema: what it means that fields were added. *)
From Coq Require Import ZArith List Bool.
From Verif Require Import Base Schema Value WireSpec Typing RecordSpec DecodeSpec ContentSpec.
Import ListNotations.

(** [older so sn]: [so] is an earlier version of [sn].  Fields may have been added to
    any message; the others are unchanged.  Added fields are neither required nor in
    a oneof that existed before (their struct member is a new one; the older struct
    leaves the place of that member unused).  The older program keeps unknown
    fields.  Messages without helpers are the same.  Extension ranges are not used. *)
Record older (so sn : schema) : Prop := mkOlder {
  old_up : sc_up so = sc_up sn;
  old_foreign : forall m, md_foreign (md_of so m) = md_foreign (md_of sn m);
  old_same : forall m, md_foreign (md_of sn m) = true -> md_of so m = md_of sn m;
  old_slots : forall m, md_nslots (md_of so m) = md_nslots (md_of sn m);
  old_fields : forall m f, In f (md_fields (md_of so m)) -> In f (md_fields (md_of sn m));
  old_apart : forall m f g, In f (md_fields (md_of so m)) -> In g (md_fields (md_of sn m)) ->
    ~ In g (md_fields (md_of so m)) -> f_slot f <> f_slot g;
  old_required : forall m f, In f (md_fields (md_of sn m)) -> ~ In f (md_fields (md_of so m)) -> is_required f = false;
  old_keep : forall m, md_foreign (md_of so m) = false -> md_keep (md_of so m) = true;
  old_noext : forall m, md_ext (md_of so m) = [] /\ md_ext (md_of sn m) = []
}.

(** The same bits, or negative zero became zero. *)
Definition zero_lax (k : kind) (x y : Z) : Prop := y = x \/ (zero_num k x = true /\ y = 0)%Z.
