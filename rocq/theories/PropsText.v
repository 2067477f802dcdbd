(** Property C59: the generated SizeVT methods as Go code.  The statements printed by
    /repo/features/size/size.go, run by the semantics of GoSem.v, compute SizeVT; their text is
    the text of the SizeVT methods in the *_vtproto.pb.go files of /repo. *)
From Coq Require Import ZArith List Bool Lia String.
From Verif Require Import Base Schema Value Helpers Size Marshal Typing MarshalTop GoSyntax GoSem GenSize GenSizeFacts
  GoTextSpec GoDescs GoTextSize KnownSpec PropsMarshal PropsKnown Ex.
Import ListNotations.
Open Scope string_scope.
Open Scope Z_scope.

(** Methods are called only on types that have them: a type treated as local or well-known has
    helpers of vtprotobuf. *)
Definition consistent (dp : nat -> dispatch) (sc : schema) : Prop :=
  forall m, dp m <> DOther -> md_foreign (md_of sc m) = false.

(** * C59 *)
Theorem C59_size : forall dp sc m v n,
  wf_schema sc = true -> up_enc_ok sc -> consistent dp sc ->
  wt_ptrmsg sc m v -> md_foreign (md_of sc m) = false -> SizeVT sc m v < 2 ^ 63 ->
  (vdepth v < n)%nat ->
  run_SizeVT dp sc n (GV (TMsg m) v) "SizeVT" = Some (GInt (SizeVT sc m v)).
Proof.
  intros dp sc m v n W U D T F B L.
  destruct (all_good sc dp W D) with (n := n) (m := m) (v := v) (k := S (vdepth v)) as [_ R]; auto.
  intros m' v' F'. destruct U as [U _]. rewrite (U m' v' F'). apply zlen_pos.
Qed.
Print Assumptions C59_size.

(** What a user relies on: the printed SizeVT returns the number of bytes MarshalVT produces. *)
Theorem C59_size_of_output : forall dp sc strict m v bs n,
  wf_schema sc = true -> up_enc_ok sc -> consistent dp sc ->
  wt_ptrmsg sc m v -> md_foreign (md_of sc m) = false ->
  MarshalVT sc strict m v = Ok (Some bs) -> zlen bs < 2 ^ 63 ->
  (vdepth v < n)%nat ->
  run_SizeVT dp sc n (GV (TMsg m) v) "SizeVT" = Some (GInt (zlen bs)).
Proof.
  intros dp sc strict m v bs n W U D T F E B L.
  pose proof (C08_size_exact sc strict m v (Some bs) W U T E) as S8. cbn in S8.
  rewrite <- S8 in *. now apply C59_size.
Qed.
Print Assumptions C59_size_of_output.

(** Without the bound the printed sum wraps around: the hypothesis is needed only because Go's
    int has 64 bits; no value that fits in memory violates it. *)

(** Message 2 of [ex_sc] has no helpers and is reached through an interface check. *)
Definition ex_dp (m : nat) : dispatch := match m with 0%nat => DLocal | 1%nat => DKnown | _ => DOther end.
Example C59_nonvacuous :
  wf_schema ex_sc = true /\ up_enc_ok ex_sc /\ consistent ex_dp ex_sc /\ wt_ptrmsg ex_sc 0 ex_v /\
  md_foreign (md_of ex_sc 0) = false /\ SizeVT ex_sc 0 ex_v = 96 /\
  run_SizeVT ex_dp ex_sc 9 (GV (TMsg 0) ex_v) "SizeVT" = Some (GInt 96).
Proof.
  split; [reflexivity|]. split; [apply ex_up_ok|]. split.
  { intros [|[|m]] H; try reflexivity. now destruct H. }
  split; [right; apply ex_wt|]. repeat split; vm_compute; reflexivity.
Qed.

(** * The text *)
(** The SizeVT methods of every message of /repo/testproto and /repo/conformance, word for
    word: what the modelled generator prints is what is in the file. *)
Example C59_text_ignore_unknown : printed gen_message c_ignore_unknown d_ignore_unknown = found s_ignore_unknown. Proof. reflexivity. Qed.
Example C59_text_pool : printed gen_message c_pool d_pool = found s_pool. Proof. reflexivity. Qed.
Example C59_text_pool_oneof : printed gen_message c_pool_oneof d_pool_oneof = found s_pool_oneof. Proof. reflexivity. Qed.
Example C59_text_pool_slice : printed gen_message c_pool_slice d_pool_slice = found s_pool_slice. Proof. reflexivity. Qed.
Example C59_text_proto2 : printed gen_message c_proto2 d_proto2 = found s_proto2. Proof. reflexivity. Qed.
Example C59_text_proto3opt : printed gen_message c_proto3opt d_proto3opt = found s_proto3opt. Proof. reflexivity. Qed.
Example C59_text_unique : printed gen_message c_unique d_unique = found s_unique. Proof. reflexivity. Qed.
Example C59_text_unsafe : printed gen_message c_unsafe d_unsafe = found s_unsafe. Proof. reflexivity. Qed.
Example C59_text_wkt : printed gen_message c_wkt d_wkt = found s_wkt. Proof. reflexivity. Qed.
Example C59_text_grpc : printed gen_message c_grpc d_grpc = found s_grpc. Proof. reflexivity. Qed.
Example C59_text_grpc_inner : printed gen_message c_grpc_inner d_grpc_inner = found s_grpc_inner. Proof. reflexivity. Qed.
Example C59_text_conformance : printed gen_message c_conformance d_conformance = found s_conformance. Proof. reflexivity. Qed.
Example C59_text_conformance2 : printed gen_message c_conformance2 d_conformance2 = found s_conformance2. Proof. reflexivity. Qed.
Example C59_text_conformance3 : printed gen_message c_conformance3 d_conformance3 = found s_conformance3. Proof. reflexivity. Qed.

(** The same for the well-known types, with the descriptors of KnownSpec.v. *)
Example C59_text_any : printed_known gen_message "anypb" k_any = found s_any. Proof. reflexivity. Qed.
Example C59_text_duration : printed_known gen_message "durationpb" k_duration = found s_duration. Proof. reflexivity. Qed.
Example C59_text_empty : printed_known gen_message "emptypb" k_empty = found s_empty. Proof. reflexivity. Qed.
Example C59_text_field_mask : printed_known gen_message "fieldmaskpb" k_field_mask = found s_field_mask. Proof. reflexivity. Qed.
Example C59_text_struct : printed_known gen_message "structpb" k_struct = found s_struct. Proof. reflexivity. Qed.
Example C59_text_timestamp : printed_known gen_message "timestamppb" k_timestamp = found s_timestamp. Proof. reflexivity. Qed.
Example C59_text_wrappers : printed_known gen_message "wrapperspb" k_wrappers = found s_wrappers. Proof. reflexivity. Qed.

(** The descriptors compared are ones the theorem speaks about: the messages of each file,
    indexed as in the file, form a well-formed schema. *)
Definition schema_of (casts : list (nat * string)) (l : list gmsg) : schema :=
  mkS (map (fun i => match find (fun g => Nat.eqb (g_index g) i) l with
                     | Some g => sorted_desc (g_desc g) | None => known_desc [] 0 end)
           (seq 0 (List.length l + List.length casts)))
      (sc_up known_sc).
Example C59_wf :
  map wf_schema [schema_of c_ignore_unknown d_ignore_unknown; schema_of c_pool d_pool; schema_of c_pool_oneof d_pool_oneof;
    schema_of c_pool_slice d_pool_slice; schema_of c_proto2 d_proto2; schema_of c_proto3opt d_proto3opt; schema_of c_unique d_unique;
    schema_of c_unsafe d_unsafe; schema_of c_wkt d_wkt; schema_of c_grpc d_grpc; schema_of c_grpc_inner d_grpc_inner;
    schema_of c_conformance d_conformance; schema_of c_conformance2 d_conformance2; schema_of c_conformance3 d_conformance3]
  = repeat true 14.
Proof. vm_compute. reflexivity. Qed.
