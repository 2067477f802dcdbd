(** Property C63: the generated CloneVT and CloneMessageVT methods as Go code.  The statements
    printed by /repo/features/clone/clone.go, run by the semantics of GoClone.v, return what
    CloneVT of the model returns, and store no pointer, slice or map of the original in the
    clone; their text is the text of these methods in the *_vtproto.pb.go files of /repo. *)
From Coq Require Import ZArith List Bool Lia String.
From Verif Require Import Base Schema Value Helpers Typing Unmarshal Equal EqualSpec Clone CloneSpec GoSyntax GoSem GoEqual GoClone
  GenSize GenEqual GenClone GenCloneFacts GoTextSpec GoDescs GoTextClone KnownSpec ContentSpec Size Marshal MsgSpec Pool PoolSpec
  PropsEqual PropsClone PropsPool PropsKnown PropsText PropsUnprint PropsEqPrint Ex.
Import ListNotations.
Open Scope string_scope.
Open Scope Z_scope.
Open Scope list_scope.

(** * C63 *)
(** The printed method returns, without panicking, the answer of the model.  [al] gives the
    objects the pools return (a new message where the type is not pooled).  The ownership
    [None] of the result says that it is made of memory the calls allocated or drew from the
    pools: the semantics is stuck when a reference of the original is stored in the clone. *)
Theorem C63_clone : forall dp sc al m v n,
  wf_schema sc = true -> consistent dp sc -> md_foreign (md_of sc m) = false ->
  (forall p m', blank sc m' (al p m')) ->
  (forall p m', md_pool (md_of sc m') = false -> al p m' = new_msg (md_of sc m')) ->
  wt_ptrmsg sc m v -> (vdepth v < n)%nat ->
  run_CloneVT dp sc al n (CV (TMsg m) (Some []) v) = Some (CV (TMsg m) None (CloneVT_from sc al m v)).
Proof. intros dp sc al m v n W D F AL NP T L. now apply run_CloneVT_ok. Qed.
Print Assumptions C63_clone.

(** What a user relies on: the printed code returns a message that shares nothing with the
    original and has its content. *)
Theorem C63_same_content : forall dp sc al m v n,
  wf_schema sc = true -> consistent dp sc -> up_clone_ok sc -> md_foreign (md_of sc m) = false ->
  (forall p m', blank sc m' (al p m')) ->
  (forall p m', md_pool (md_of sc m') = false -> al p m' = new_msg (md_of sc m')) ->
  wt_msg sc m v -> (vdepth v < n)%nat ->
  exists c, run_CloneVT dp sc al n (CV (TMsg m) (Some []) v) = Some (CV (TMsg m) None c) /\
    wt_msg sc m c /\ same_msg sc same_bits same_bits (up_cloned sc) m v c.
Proof.
  intros dp sc al m v n W D U F AL NP T L. exists (CloneVT_from sc al m v).
  split; [apply C63_clone; auto; now right|]. now apply C34_same_content.
Qed.
Print Assumptions C63_same_content.

(** The printed EqualVT finds the original and the result of the printed CloneVT equal,
    provided no float in the original is a NaN. *)
Theorem C63_equal : forall dp sc al same m v n,
  wf_schema sc = true -> consistent dp sc -> up_clone_ok sc -> up_eq_ok sc -> md_foreign (md_of sc m) = false ->
  (forall p m', blank sc m' (al p m')) ->
  (forall p m', md_pool (md_of sc m') = false -> al p m' = new_msg (md_of sc m')) ->
  wt_ptrmsg sc m v -> nan_free sc m v -> (vdepth v < n)%nat ->
  exists c, run_CloneVT dp sc al n (CV (TMsg m) (Some []) v) = Some (CV (TMsg m) None c) /\
    forall k, (S (Nat.max (vdepth v) (vdepth c)) < k)%nat ->
      run_EqualVT dp sc same k (QV (TMsg m) [] v) (QV (TMsg m) [] c) = Some true.
Proof.
  intros dp sc al same m v n W D U UE F AL NP T N L. exists (CloneVT_from sc al m v).
  split; [now apply C63_clone|]. intros k K.
  assert (wt_ptrmsg sc m (CloneVT_from sc al m v)) as Tc.
  { destruct T as [->|T]; [now left|]. right. now apply C34_same_content. }
  rewrite C62_equal by assumption. f_equal. now apply C34_equal.
Qed.
Print Assumptions C63_equal.

(** Cloning a nil pointer gives a nil pointer. *)
Theorem C63_nil : forall dp sc al m n p,
  md_foreign (md_of sc m) = false ->
  run_CloneVT dp sc al (S n) (CV (TMsg m) (Some p) VNil) = Some (CV (TMsg m) None VNil).
Proof. intros dp sc al m n p F. cbn [run_CloneVT]. rewrite F. reflexivity. Qed.
Print Assumptions C63_nil.

(** CloneMessageVT returns what CloneVT returns, for every receiver and every recursion
    depth. *)
Theorem C63_message : forall dp sc al m v n,
  wf_schema sc = true -> consistent dp sc -> md_foreign (md_of sc m) = false ->
  (forall p m', blank sc m' (al p m')) ->
  (forall p m', md_pool (md_of sc m') = false -> al p m' = new_msg (md_of sc m')) ->
  wt_ptrmsg sc m v -> (vdepth v < n)%nat ->
  run_CloneMessageVT dp sc al n (CV (TMsg m) (Some []) v) = Some (CV (TMsg m) None (CloneVT_from sc al m v)).
Proof.
  intros dp sc al m v n W D F AL NP T L. unfold run_CloneMessageVT, gen_clone_message. cbn.
  rewrite C63_clone by assumption. reflexivity.
Qed.
Print Assumptions C63_message.

(** With pools: whatever a program has done before, the printed code draws messages from the
    pools and returns a message with the content of the original, provided no pooled message
    has a bytes field with presence (C36 shows what happens then). *)
Theorem C63_pool : forall dp sc s al m v n,
  wf_schema sc = true -> consistent dp sc -> up_dec_ok sc -> up_compact sc -> up_clone_ok sc -> up_eq_ok sc ->
  pools_local sc -> no_optional_bytes sc -> reachable sc s -> md_foreign (md_of sc m) = false -> wt_msg sc m v ->
  (forall p m', md_pool (md_of sc m') = true -> drawn sc (in_pool s) m' (al p m')) ->
  (forall p m', md_pool (md_of sc m') = false -> al p m' = new_msg (md_of sc m')) ->
  (vdepth v < n)%nat ->
  exists c, run_CloneVT dp sc al n (CV (TMsg m) (Some []) v) = Some (CV (TMsg m) None c) /\
    wt_msg sc m c /\ same_msg sc same_bits same_bits (up_cloned sc) m v c.
Proof.
  intros dp sc s al m v n W D UD UX UC UE PL N R F T A1 A2 L. apply C63_same_content; auto. intros p m'.
  destruct (md_pool (md_of sc m')) eqn:P; [|rewrite A2 by exact P; now apply new_blank].
  exact (proj1 (C36_like_new_partial sc s m' (al p m') (fun _ => false) W UD UX UC UE PL N R P (A1 p m' P))).
Qed.
Print Assumptions C63_pool.

(** The message with a field of every shape meets the hypotheses. *)
Definition new_from (sc : schema) (p : list step) (m : nat) : val := new_msg (md_of sc m).
Example C63_nonvacuous :
  wf_schema ex_sc = true /\ consistent ex_dp ex_sc /\ up_clone_ok ex_sc /\ up_eq_ok ex_sc /\ md_foreign (md_of ex_sc 0) = false /\
  (forall p m, blank ex_sc m (new_from ex_sc p m)) /\
  wt_msg ex_sc 0 ex_v /\ nan_free ex_sc 0 ex_v /\ (vdepth ex_v < 9)%nat /\
  run_CloneVT ex_dp ex_sc (new_from ex_sc) 9 (CV (TMsg 0) (Some []) ex_v) = Some (CV (TMsg 0) None ex_v) /\
  run_CloneMessageVT ex_dp ex_sc (new_from ex_sc) 9 (CV (TMsg 0) (Some []) ex_v) = Some (CV (TMsg 0) None ex_v).
Proof.
  split; [apply ex_wf|]. split; [intros [|[|m]] H; try reflexivity; now destruct H|]. split; [apply ex_clone_ok|]. split; [apply ex_eq_ok|]. split; [reflexivity|].
  split; [intros p m; apply new_blank, ex_wf|]. split; [apply ex_wt|]. split; [apply ex_free|].
  split; [vm_compute; lia|]. split; vm_compute; reflexivity.
Qed.

(** A clone made of the object a program returned to the pool. *)
Definition pl_from (p : list step) (m : nat) : val :=
  match m with 0%nat => pl_node | 1%nat => pl_leaf | _ => new_msg (md_of pl_sc m) end.
Example C63_pool_nonvacuous :
  wf_schema pl_sc = true /\ consistent pl_dp pl_sc /\ reachable pl_sc pl_pool /\ pools_local pl_sc /\ no_optional_bytes pl_sc /\
  (forall p m, md_pool (md_of pl_sc m) = true -> drawn pl_sc (in_pool pl_pool) m (pl_from p m)) /\
  (forall p m, md_pool (md_of pl_sc m) = false -> pl_from p m = new_msg (md_of pl_sc m)) /\
  exists c, run_CloneVT pl_dp pl_sc pl_from 9 (CV (TMsg 0) (Some []) pl_live) = Some (CV (TMsg 0) None c) /\
    MarshalVT pl_sc true 0 c = MarshalVT pl_sc true 0 pl_live /\ c <> pl_live.
Proof.
  split; [apply pl_wf|]. split; [intros [|[|[|m]]] H; try reflexivity; now destruct H|]. split; [apply pl_reach|]. split; [apply pl_local|]. split; [apply pl_no_opt|].
  split; [intros p [|[|[|[|m]]]] P; cbn in P; try discriminate; left; cbn; auto|].
  split; [intros p [|[|m]] P; try discriminate; reflexivity|].
  eexists. split; [vm_compute; reflexivity|]. split; [vm_compute; reflexivity|discriminate].
Qed.

(** A google.protobuf.Value holding a list of two values, by the code of the package of
    well-known types. *)
Example C63_known_nonvacuous :
  consistent (fun _ => DKnown) known_sc /\ wt_msg known_sc 14 (known_text 97) /\
  run_CloneVT (fun _ => DKnown) known_sc (new_from known_sc) 12 (CV (TMsg 14) (Some []) (known_text 97))
    = Some (CV (TMsg 14) None (known_text 97)).
Proof. split; [intros m _; apply known_local|]. split; [now apply (check_ok known_sc 9)|]. vm_compute. reflexivity. Qed.

(** The semantics does see sharing: a method that stored the bytes of the original in the clone
    would be stuck, as would one that stored a message of the original or its unknown fields. *)
Example C63_sharing_stuck :
  let run s := cresult (cexec pl_sc (new_from pl_sc) (fun _ => None) [] 0 s [("m", CV (TMsg 0) (Some []) pl_live)]) in
  let share f := cblock [CDef "r" (CNew 0); CSet (LSel "r" f) (CSel (CVar "m") f); CRet (CVar "r")] in
  run (share (MSlot 0)) = None /\ run (share (MSlot 2)) = None /\ run (share (MSlot 3)) = None /\
  run (share (MSlot 1)) = Some (CV (TMsg 0) None (VMsg [VNil; VStr [97]; VNil; VNil; VNil] [] [])).
Proof. vm_compute. repeat split. Qed.

(** * The text *)
(** The text of the methods of all messages of a file.  [t] gives for each message the Go names
    of the types of its fields. *)
Definition printed_cl (casts : list (nat * string)) (l : list gmsg) (t : list (list (Z * string) * list Z)) : string :=
  String.concat "" (map (fun p => let '(g, (tn, un)) := p in
    print_clone (dispatch_of casts) (names_of casts g) (fun n => find_num "?" n tn) (g_name g) (g_index g) (g_desc g)) (combine l t)).
Example C63_text_ignore_unknown : printed_cl c_ignore_unknown d_ignore_unknown t_ignore_unknown = found y_ignore_unknown. Proof. apply String.eqb_eq; vm_compute; reflexivity. Qed.
Example C63_text_pool : printed_cl c_pool d_pool t_pool = found y_pool. Proof. apply String.eqb_eq; vm_compute; reflexivity. Qed.
Example C63_text_pool_oneof : printed_cl c_pool_oneof d_pool_oneof t_pool_oneof = found y_pool_oneof. Proof. apply String.eqb_eq; vm_compute; reflexivity. Qed.
Example C63_text_pool_slice : printed_cl c_pool_slice d_pool_slice t_pool_slice = found y_pool_slice. Proof. apply String.eqb_eq; vm_compute; reflexivity. Qed.
Example C63_text_proto2 : printed_cl c_proto2 d_proto2 t_proto2 = found y_proto2. Proof. apply String.eqb_eq; vm_compute; reflexivity. Qed.
Example C63_text_proto3opt : printed_cl c_proto3opt d_proto3opt t_proto3opt = found y_proto3opt. Proof. apply String.eqb_eq; vm_compute; reflexivity. Qed.
Example C63_text_unique : printed_cl c_unique d_unique t_unique = found y_unique. Proof. apply String.eqb_eq; vm_compute; reflexivity. Qed.
Example C63_text_unsafe : printed_cl c_unsafe d_unsafe t_unsafe = found y_unsafe. Proof. apply String.eqb_eq; vm_compute; reflexivity. Qed.
Example C63_text_wkt : printed_cl c_wkt d_wkt t_wkt = found y_wkt. Proof. apply String.eqb_eq; vm_compute; reflexivity. Qed.
Example C63_text_grpc : printed_cl c_grpc d_grpc t_grpc = found y_grpc. Proof. apply String.eqb_eq; vm_compute; reflexivity. Qed.
Example C63_text_grpc_inner : printed_cl c_grpc_inner d_grpc_inner t_grpc_inner = found y_grpc_inner. Proof. apply String.eqb_eq; vm_compute; reflexivity. Qed.
Example C63_text_conformance : printed_cl c_conformance d_conformance t_conformance = found y_conformance. Proof. apply String.eqb_eq; vm_compute; reflexivity. Qed.
Example C63_text_conformance2 : printed_cl c_conformance2 d_conformance2 t_conformance2 = found y_conformance2. Proof. apply String.eqb_eq; vm_compute; reflexivity. Qed.
Example C63_text_conformance3 : printed_cl c_conformance3 d_conformance3 t_conformance3 = found y_conformance3. Proof. apply String.eqb_eq; vm_compute; reflexivity. Qed.

(** The same for the well-known types. *)
Definition printed_cl_known (pkg : string) (l : list gmsg) (t : list (list (Z * string) * list Z)) : string :=
  String.concat "" (map (fun p => let '(g, (tn, un)) := p in
    print_clone (fun _ => DKnown) (names_known pkg g) (fun n => (pkg ++ "." ++ find_num "?" n tn)%string) (g_name g) (g_index g) (g_desc g)) (combine l t)).
Example C63_text_any : printed_cl_known "anypb" k_any t_none = found y_any. Proof. apply String.eqb_eq; vm_compute; reflexivity. Qed.
Example C63_text_duration : printed_cl_known "durationpb" k_duration t_none = found y_duration. Proof. apply String.eqb_eq; vm_compute; reflexivity. Qed.
Example C63_text_empty : printed_cl_known "emptypb" k_empty t_none = found y_empty. Proof. apply String.eqb_eq; vm_compute; reflexivity. Qed.
Example C63_text_field_mask : printed_cl_known "fieldmaskpb" k_field_mask t_none = found y_field_mask. Proof. apply String.eqb_eq; vm_compute; reflexivity. Qed.
Example C63_text_struct : printed_cl_known "structpb" k_struct t_struct = found y_struct. Proof. apply String.eqb_eq; vm_compute; reflexivity. Qed.
Example C63_text_timestamp : printed_cl_known "timestamppb" k_timestamp t_none = found y_timestamp. Proof. apply String.eqb_eq; vm_compute; reflexivity. Qed.
Example C63_text_wrappers : printed_cl_known "wrapperspb" k_wrappers t_none = found y_wrappers. Proof. apply String.eqb_eq; vm_compute; reflexivity. Qed.

(** No text is empty. *)
Example C63_text_nonempty :
  forallb (fun l => negb (Nat.eqb (String.length (found l)) 0))
    [y_ignore_unknown; y_pool; y_pool_oneof; y_pool_slice; y_proto2; y_proto3opt; y_unique; y_unsafe; y_wkt; y_grpc; y_grpc_inner; y_conformance; y_conformance2; y_conformance3;
     y_any; y_duration; y_empty; y_field_mask; y_struct; y_timestamp; y_wrappers] = true.
Proof. vm_compute. reflexivity. Qed.
