(** Property C60: the generated marshalling methods as Go code.  The statements printed by
    /repo/features/marshal/marshalto.go, run by the semantics of GoSem.v and GoMarshal.v, return
    what MarshalVT, MarshalToVT and MarshalToSizedBufferVT return; their text is the text of these
    methods in the *_vtproto.pb.go files of /repo. *)
From Coq Require Import ZArith List Bool Lia String.
From Verif Require Import Base BaseFacts Schema Value Helpers Size Marshal Typing SimFacts MarshalTop GoSyntax GoSem GenSize
  GenSizeFacts GoMarshal GenMarshal GenMarshalFacts GoTextSpec GoDescs GoTextMarshal GoTextStrict KnownSpec WireSpec MsgSpec
  PropsMarshal PropsKnown PropsText Ex.
Import ListNotations.
Open Scope string_scope.
Open Scope Z_scope.
Open Scope list_scope.

(** Ten rounds of the loop writing a varint are enough for 64 bits (marshalto.go calls
    protohelpers.EncodeVarint; the loop is printed for packed fields, marshalto.go:220-226). *)

(** * C60 *)
Lemma sized_total sc strict m v buf : wf_schema sc = true -> up_enc_ok sc -> wt_ptrmsg sc m v -> SizeVT sc m v <= zlen buf ->
  exists r, MarshalToSizedBufferVT sc strict m v buf = Ok r \/ exists e, MarshalToSizedBufferVT sc strict m v buf = Err e tt.
Proof.
  intros W U T B. destruct (C09_sized_buffer sc strict m v buf W U T B) as (enc & _ & _ & Hm & Hn).
  pose proof (Initialized_missing sc m v W T) as I.
  destruct (Initialized sc m v).
  - assert (~ MissingRequired sc m v) as M by (intros M; now apply I in M). rewrite (Hn M). eauto.
  - specialize (Hm (proj1 I eq_refl)). unfold is_err in Hm.
    destruct (MarshalToSizedBufferVT sc strict m v buf) as [r|e []| |]; try now destruct Hm.
    exists ([], 0). eauto.
Qed.

Theorem C60_sized_buffer : forall dp strict sc size m v rounds n buf,
  wf_schema sc = true -> up_enc_ok sc -> consistent dp sc ->
  wt_ptrmsg sc m v -> md_foreign (md_of sc m) = false ->
  SizeVT sc m v <= zlen buf < 2 ^ 63 -> (10 <= rounds)%nat -> (vdepth v < n)%nat ->
  run_sized dp strict sc size rounds n (GV (TMsg m) v) buf = MarshalToSizedBufferVT sc strict m v buf.
Proof.
  intros dp strict sc size m v rounds n buf W U D T F [B1 B2] R L.
  pose proof (GenMarshalFacts.all_good sc dp strict W D size rounds R n n (le_n n)
    m v (S (vdepth v)) buf T F L ltac:(lia) B2) as H.
  fold (MarshalToSizedBufferVT sc strict m v buf) in H. unfold same in H.
  destruct (sized_total sc strict m v buf W U T B1) as [[b z] [E|[e E]]]; rewrite E in *; tauto.
Qed.
Print Assumptions C60_sized_buffer.

Theorem C60_marshal : forall dp strict sc m v rounds n,
  wf_schema sc = true -> up_enc_ok sc -> consistent dp sc ->
  wt_ptrmsg sc m v -> md_foreign (md_of sc m) = false ->
  SizeVT sc m v < 2 ^ 63 -> (10 <= rounds)%nat -> (vdepth v < n)%nat ->
  run_MarshalVT dp strict sc rounds n (GV (TMsg m) v) = MarshalVT sc strict m v.
Proof.
  intros dp strict sc m v rounds n W U D T F B R L.
  unfold run_MarshalVT, mmethod_bytes, g_marshal.
  destruct T as [->|T]; [reflexivity|].
  assert (wt_ptrmsg sc m v) as T' by now right.
  pose proof (C59_size dp sc m v n W U D T' F B L) as S.
  assert (0 <= SizeVT sc m v) as P.
  { destruct (C09_sized_buffer sc strict m v (repeat 0 (Z.to_nat (SizeVT sc m v))) W U T') as (enc & <- & _);
      [unfold zlen; rewrite repeat_length; lia|apply zlen_pos]. }
  set (buf := repeat 0 (Z.to_nat (SizeVT sc m v))).
  assert (zlen buf = SizeVT sc m v) as Lb by (unfold buf, zlen; rewrite repeat_length; lia).
  pose proof (C60_sized_buffer dp strict sc (run_SizeVT dp sc n) m v rounds n buf W U D T' F ltac:(lia) R L) as H.
  inversion T as [? slots unk hid Hl Hf Hk]; subst.
  set (v := VMsg slots unk hid) in *. set (g := GV (TMsg m) v) in *.
  change (MarshalVT sc strict m v) with
    (do r <- MarshalToSizedBufferVT sc strict m v buf; do out <- orpanic (zslice (fst r) 0 (snd r)); Ok (Some out)).
  destruct (sized_total sc strict m v buf W U T' ltac:(lia)) as [[b z] E].
  cbn [mblock mexec].
  rewrite (eq_nil sc (run_SizeVT dp sc n) [("err", GErr None); ("dAtA", GBuf 0); ("m", g)] (EVar "m") g false eq_refl eq_refl).
  set (E0 := [("err", GErr None); ("dAtA", GBuf 0); ("m", g)]).
  change (mleave E0 (MNext E0 [])) with (MNext E0 []). cbn match.
  cbn [exec eval]. change (lookup "m" E0) with (Some g). cbn match. rewrite S. cbn match.
  change (lookup "size" (("size", GInt (SizeVT sc m v)) :: E0)) with (Some (GInt (SizeVT sc m v))). cbn match.
  destruct (SizeVT sc m v <? 0) eqn:Ez; [apply Z.ltb_lt in Ez; lia|].
  set (E1 := [("size", GInt (SizeVT sc m v)); ("err", GErr None); ("dAtA", GBuf (SizeVT sc m v)); ("m", g)]).
  change (assign "dAtA" (GBuf (SizeVT sc m v)) (("size", GInt (SizeVT sc m v)) :: E0)) with (Some E1). cbn match.
  rewrite String.eqb_refl. change (lookup "m" E1) with (Some g).
  change (lookup "size" E1) with (Some (GInt (SizeVT sc m v))). cbn match. fold buf.
  assert (zslice buf 0 (SizeVT sc m v) = Some buf) as ->.
  { rewrite <- Lb, <- (app_nil_r buf) at 1. apply zslice_pre. }
  rewrite H. destruct E as [E|[e E]]; rewrite E; cbn [rbind fst snd]; cbn match.
  - assert (skipn (Z.to_nat (SizeVT sc m v)) buf = []) as ->.
    { rewrite <- Lb. unfold zlen. rewrite Nat2Z.id. apply skipn_all. }
    rewrite app_nil_r. reflexivity.
  - reflexivity.
Qed.
Print Assumptions C60_marshal.

Theorem C60_marshal_to : forall dp strict sc m v rounds n len arr,
  wf_schema sc = true -> up_enc_ok sc -> consistent dp sc ->
  wt_ptrmsg sc m v -> md_foreign (md_of sc m) = false ->
  SizeVT sc m v < 2 ^ 63 -> (10 <= rounds)%nat -> (vdepth v < n)%nat ->
  run_MarshalToVT dp strict sc rounds n (GV (TMsg m) v) len arr = MarshalToVT sc strict m v arr.
Proof.
  intros dp strict sc m v rounds n len arr W U D T F B R L.
  pose proof (C59_size dp sc m v n W U D T F B L) as S.
  unfold run_MarshalToVT, mmethod, g_to, MarshalToVT. cbn [mblock mexec exec eval].
  set (g := GV (TMsg m) v) in *. set (E0 := [("dAtA", GBuf len); ("m", g)]).
  change (lookup "m" E0) with (Some g). cbn match. rewrite S. cbn match.
  rewrite String.eqb_refl. cbn [eval].
  change (lookup "m" (("size", GInt (SizeVT sc m v)) :: E0)) with (Some g).
  change (lookup "size" (("size", GInt (SizeVT sc m v)) :: E0)) with (Some (GInt (SizeVT sc m v))). cbn match.
  destruct (zslice arr 0 (SizeVT sc m v)) as [pre|] eqn:Ep; cbn [orpanic rbind]; [|reflexivity].
  assert (zlen pre = SizeVT sc m v) as Lp.
  { apply zslice_inv in Ep. destruct Ep as (? & ? & ? & ?). lia. }
  pose proof (C60_sized_buffer dp strict sc (run_SizeVT dp sc n) m v rounds n pre W U D T F ltac:(lia) R L) as H.
  fold g in H. rewrite H.
  destruct (sized_total sc strict m v pre W U T ltac:(lia)) as [[b z] [E|[e E]]]; rewrite E; reflexivity.
Qed.
Print Assumptions C60_marshal_to.

(** What a user relies on: the printed methods write the encoding of the message, and the
    encoding is the one WireSpec.v defines. *)
Theorem C60_output : forall dp strict sc m v rounds n,
  wf_schema sc = true -> up_enc_ok sc -> consistent dp sc ->
  wt_msg sc m v -> md_foreign (md_of sc m) = false -> ~ MissingRequired sc m v ->
  SizeVT sc m v < 2 ^ 63 -> (10 <= rounds)%nat -> (vdepth v < n)%nat ->
  exists ord, all_fields sc ord /\
    run_MarshalVT dp strict sc rounds n (GV (TMsg m) v) = Ok (Some (Encoding sc ord m v)).
Proof.
  intros dp strict sc m v rounds n W U D T F M B R L.
  destruct (C15_strict_agrees sc W U) as (ord & ord' & A & A' & H).
  destruct (H m v T) as [_ H']. destruct (H' M) as (H1 & H2 & _).
  destruct strict; [exists ord|exists ord']; (split; [assumption|]);
    rewrite C60_marshal; auto; now right.
Qed.
Print Assumptions C60_output.

Example C60_nonvacuous :
  wf_schema ex_sc = true /\ up_enc_ok ex_sc /\ consistent ex_dp ex_sc /\ wt_ptrmsg ex_sc 0 ex_v /\
  md_foreign (md_of ex_sc 0) = false /\ SizeVT ex_sc 0 ex_v = 96 /\ (vdepth ex_v < 9)%nat /\
  match run_MarshalVT ex_dp false ex_sc 10 9 (GV (TMsg 0) ex_v), run_MarshalVT ex_dp true ex_sc 10 9 (GV (TMsg 0) ex_v) with
  | Ok (Some b), Ok (Some b') => zlen b = 96 /\ zlen b' = 96 /\ b <> b'
  | _, _ => False end /\
  match run_MarshalToVT ex_dp false ex_sc 10 9 (GV (TMsg 0) ex_v) 5 (repeat 9 100) with
  | Ok (b, n) => (skipn 96 b, firstn 3 b, n) = ([9; 9; 9; 9], [8; 255; 255], 96) | _ => False end /\
  run_MarshalToVT ex_dp false ex_sc 10 9 (GV (TMsg 0) ex_v) 5 (repeat 9 95) = Panic.
Proof.
  split; [reflexivity|]. split; [apply ex_up_ok|]. split.
  { intros [|[|m]] H; try reflexivity. now destruct H. }
  split; [right; apply ex_wt|]. split; [reflexivity|]. split; [reflexivity|].
  split; [vm_compute; repeat constructor|]. split.
  - vm_compute. repeat split. discriminate.
  - split; vm_compute; reflexivity.
Qed.

(** * The text *)
(** MarshalVT, MarshalToVT and MarshalToSizedBufferVT of every message of /repo/testproto and
    /repo/conformance, and of the wrappers of their oneofs, word for word. *)
Definition gen_plain (dp : nat -> dispatch) := gen_marshal dp false.
Definition gen_strict (dp : nat -> dispatch) := gen_marshal dp true.
Example C60_text_ignore_unknown : printed gen_plain c_ignore_unknown d_ignore_unknown = found m_ignore_unknown. Proof. reflexivity. Qed.
Example C60_text_pool : printed gen_plain c_pool d_pool = found m_pool. Proof. reflexivity. Qed.
Example C60_text_pool_oneof : printed gen_plain c_pool_oneof d_pool_oneof = found m_pool_oneof. Proof. reflexivity. Qed.
Example C60_text_pool_slice : printed gen_plain c_pool_slice d_pool_slice = found m_pool_slice. Proof. reflexivity. Qed.
Example C60_text_proto2 : printed gen_plain c_proto2 d_proto2 = found m_proto2. Proof. reflexivity. Qed.
Example C60_text_proto3opt : printed gen_plain c_proto3opt d_proto3opt = found m_proto3opt. Proof. reflexivity. Qed.
Example C60_text_unique : printed gen_plain c_unique d_unique = found m_unique. Proof. reflexivity. Qed.
Example C60_text_unsafe : printed gen_plain c_unsafe d_unsafe = found m_unsafe. Proof. reflexivity. Qed.
Example C60_text_wkt : printed gen_plain c_wkt d_wkt = found m_wkt. Proof. reflexivity. Qed.
Example C60_text_grpc : printed gen_plain c_grpc d_grpc = found m_grpc. Proof. reflexivity. Qed.
Example C60_text_grpc_inner : printed gen_plain c_grpc_inner d_grpc_inner = found m_grpc_inner. Proof. reflexivity. Qed.
Example C60_text_conformance : printed gen_plain c_conformance d_conformance = found m_conformance. Proof. reflexivity. Qed.
Example C60_text_conformance2 : printed gen_plain c_conformance2 d_conformance2 = found m_conformance2. Proof. reflexivity. Qed.
Example C60_text_conformance3 : printed gen_plain c_conformance3 d_conformance3 = found m_conformance3. Proof. reflexivity. Qed.

(** The same for the well-known types, with the descriptors of KnownSpec.v. *)
Example C60_text_any : printed_known gen_plain "anypb" k_any = found m_any. Proof. reflexivity. Qed.
Example C60_text_duration : printed_known gen_plain "durationpb" k_duration = found m_duration. Proof. reflexivity. Qed.
Example C60_text_empty : printed_known gen_plain "emptypb" k_empty = found m_empty. Proof. reflexivity. Qed.
Example C60_text_field_mask : printed_known gen_plain "fieldmaskpb" k_field_mask = found m_field_mask. Proof. reflexivity. Qed.
Example C60_text_struct : printed_known gen_plain "structpb" k_struct = found m_struct. Proof. reflexivity. Qed.
Example C60_text_timestamp : printed_known gen_plain "timestamppb" k_timestamp = found m_timestamp. Proof. reflexivity. Qed.
Example C60_text_wrappers : printed_known gen_plain "wrapperspb" k_wrappers = found m_wrappers. Proof. reflexivity. Qed.

(** MarshalVTStrict, MarshalToVTStrict and MarshalToSizedBufferVTStrict. *)
Example C60_strict_ignore_unknown : printed gen_strict c_ignore_unknown d_ignore_unknown = found x_ignore_unknown. Proof. reflexivity. Qed.
Example C60_strict_pool : printed gen_strict c_pool d_pool = found x_pool. Proof. reflexivity. Qed.
Example C60_strict_pool_oneof : printed gen_strict c_pool_oneof d_pool_oneof = found x_pool_oneof. Proof. reflexivity. Qed.
Example C60_strict_pool_slice : printed gen_strict c_pool_slice d_pool_slice = found x_pool_slice. Proof. reflexivity. Qed.
Example C60_strict_proto2 : printed gen_strict c_proto2 d_proto2 = found x_proto2. Proof. reflexivity. Qed.
Example C60_strict_proto3opt : printed gen_strict c_proto3opt d_proto3opt = found x_proto3opt. Proof. reflexivity. Qed.
Example C60_strict_unique : printed gen_strict c_unique d_unique = found x_unique. Proof. reflexivity. Qed.
Example C60_strict_unsafe : printed gen_strict c_unsafe d_unsafe = found x_unsafe. Proof. reflexivity. Qed.
Example C60_strict_wkt : printed gen_strict c_wkt d_wkt = found x_wkt. Proof. reflexivity. Qed.
Example C60_strict_grpc : printed gen_strict c_grpc d_grpc = found x_grpc. Proof. reflexivity. Qed.
Example C60_strict_grpc_inner : printed gen_strict c_grpc_inner d_grpc_inner = found x_grpc_inner. Proof. reflexivity. Qed.
Example C60_strict_conformance : printed gen_strict c_conformance d_conformance = found x_conformance. Proof. reflexivity. Qed.
Example C60_strict_conformance2 : printed gen_strict c_conformance2 d_conformance2 = found x_conformance2. Proof. reflexivity. Qed.
Example C60_strict_conformance3 : printed gen_strict c_conformance3 d_conformance3 = found x_conformance3. Proof. reflexivity. Qed.
Example C60_strict_any : printed_known gen_strict "anypb" k_any = found x_any. Proof. reflexivity. Qed.
Example C60_strict_duration : printed_known gen_strict "durationpb" k_duration = found x_duration. Proof. reflexivity. Qed.
Example C60_strict_empty : printed_known gen_strict "emptypb" k_empty = found x_empty. Proof. reflexivity. Qed.
Example C60_strict_field_mask : printed_known gen_strict "fieldmaskpb" k_field_mask = found x_field_mask. Proof. reflexivity. Qed.
Example C60_strict_struct : printed_known gen_strict "structpb" k_struct = found x_struct. Proof. reflexivity. Qed.
Example C60_strict_timestamp : printed_known gen_strict "timestamppb" k_timestamp = found x_timestamp. Proof. reflexivity. Qed.
Example C60_strict_wrappers : printed_known gen_strict "wrapperspb" k_wrappers = found x_wrappers. Proof. reflexivity. Qed.
