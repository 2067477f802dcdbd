(** Property C62: the generated EqualVT and EqualMessageVT methods as Go code.  The statements
    printed by /repo/features/equal/equal.go, run by the semantics of GoEqual.v, return what
    EqualVT of the model returns; their text is the text of these methods in the
    *_vtproto.pb.go files of /repo. *)
From Coq Require Import ZArith List Bool Lia String.
From Verif Require Import Base Schema Value Helpers Typing Unmarshal Equal EqualSpec GoSyntax GoSem GoEqual GenSize GenEqual GenEqualFacts
  GoTextSpec GoDescs GoTextEqual KnownSpec ContentSpec PropsEqual PropsKnown PropsText PropsUnprint Ex.
Import ListNotations.
Open Scope string_scope.
Open Scope Z_scope.
Open Scope list_scope.

(** * C62 *)
(** The printed method returns, without panicking, the answer of the model.  [same] answers
    whether pointers found at two positions of the operands are the same pointer; the printed
    code only ever compares pointers found at the same position. *)
Theorem C62_equal : forall dp sc same m a b n,
  wf_schema sc = true -> consistent dp sc -> md_foreign (md_of sc m) = false ->
  wt_ptrmsg sc m a -> wt_ptrmsg sc m b -> (S (Nat.max (vdepth a) (vdepth b)) < n)%nat ->
  run_EqualVT dp sc same n (QV (TMsg m) [] a) (QV (TMsg m) [] b) = Some (EqualVT sc (fun p => same p p) m a b).
Proof. intros dp sc same m a b n W D F Ta Tb L. now apply run_EqualVT_ok. Qed.
Print Assumptions C62_equal.

(** What a user relies on: whichever pointers the operands share, the printed code returns true
    if they have the same content or are both nil, and false otherwise. *)
Theorem C62_decides : forall dp sc same m a b n,
  wf_schema sc = true -> consistent dp sc -> up_eq_ok sc -> md_foreign (md_of sc m) = false ->
  wt_ptrmsg sc m a -> wt_ptrmsg sc m b -> nan_free sc m a -> (S (Nat.max (vdepth a) (vdepth b)) < n)%nat ->
  (run_EqualVT dp sc same n (QV (TMsg m) [] a) (QV (TMsg m) [] b) = Some true
     <-> (a = VNil /\ b = VNil) \/ equal_content sc m a b) /\
  (run_EqualVT dp sc same n (QV (TMsg m) [] a) (QV (TMsg m) [] b) = Some false
     <-> ~ ((a = VNil /\ b = VNil) \/ equal_content sc m a b)).
Proof.
  intros dp sc same m a b n W D U F Ta Tb N L. rewrite C62_equal by assumption.
  rewrite <- (C32_decides sc (fun p => same p p) m a b) by assumption.
  destruct (EqualVT sc (fun p => same p p) m a b); split; split; congruence.
Qed.
Print Assumptions C62_decides.

Lemma forallb_same {A} (f g : A -> bool) l : (forall x, f x = g x) -> forallb f l = forallb g l.
Proof. intros H. induction l as [|x l IH]; cbn; [reflexivity|now rewrite H, IH]. Qed.
(** Operands that share no pointer, with NaNs or without. *)
Theorem C62_separate : forall dp sc same m a b n,
  wf_schema sc = true -> consistent dp sc -> up_eq_ok sc -> md_foreign (md_of sc m) = false ->
  wt_ptrmsg sc m a -> wt_ptrmsg sc m b -> (S (Nat.max (vdepth a) (vdepth b)) < n)%nat ->
  (forall p, same p p = false) ->
  (run_EqualVT dp sc same n (QV (TMsg m) [] a) (QV (TMsg m) [] b) = Some true
     <-> (a = VNil /\ b = VNil) \/ equal_content sc m a b).
Proof.
  intros dp sc same m a b n W D U F Ta Tb L S. rewrite C62_equal by assumption.
  rewrite <- (C32_separate sc m a b) by assumption.
  assert (forall k path m a b, equal_msg sc (fun p => same p p) k path m a b = equal_msg sc (fun _ => false) k path m a b) as Q.
  { clear - S. assert (forall m a b here s r s' r', (forall st, s st = s' st) -> (forall st m a b, r st m a b = r' st m a b) ->
      equal_body sc here s r m a b = equal_body sc here s' r' m a b) as EB.
    { intros m a b here s r s' r' Hs Hr. unfold equal_body. destruct (ptr_eqb here a b); [reflexivity|].
      assert (forall st m p q, Equal.call sc r st m p q = Equal.call sc r' st m p q) as Hc by (intros; unfold Equal.call; now rewrite Hr).
      assert (forall st k nl p q, compareKind sc s r st k nl p q = compareKind sc s' r' st k nl p q) as Hk.
      { intros. unfold compareKind, compareCall. rewrite Hs. destruct (classify k); try reflexivity; destruct nl; rewrite ?Hc; reflexivity. }
      destruct a; try reflexivity. destruct b; try reflexivity. f_equal. f_equal.
      - apply forallb_same. intros i. unfold equal_oneof. destruct (slot slots i); try reflexivity. destruct (slot slots0 i); try reflexivity.
        rewrite Hs. destruct (num =? num0); [|reflexivity]. destruct (s' (SWrap i) && _); [reflexivity|]. destruct (find_field num _) as [f|]; [|reflexivity].
        destruct (f_ty f); [apply Hk|reflexivity].
      - apply forallb_same. intros f. unfold equal_field. destruct (f_ty f) as [[| | |pk|] k|kk vk]; try apply Hk; f_equal.
        + generalize 0%nat, (vlist (slot slots (f_slot f))), (vlist (slot slots0 (f_slot f))). intros i l. revert i.
          induction l as [|x l IH]; intros i [|y l']; try reflexivity. cbn [equal_list]. now rewrite Hk, IH.
        + unfold equal_map. apply forallb_same. intros e. destruct (map_get _ (fst e)); [apply Hk|reflexivity]. }
    induction k as [|k IH]; intros path m a b; [reflexivity|]. cbn [equal_msg]. rewrite (S path). now apply EB. }
  unfold EqualVT. rewrite Q. split; congruence.
Qed.
Print Assumptions C62_separate.

(** EqualMessageVT: for a message of the same type it is EqualVT, for any other message and for
    a nil interface it is false. *)
Theorem C62_message : forall dp sc same m a n,
  wf_schema sc = true -> consistent dp sc -> md_foreign (md_of sc m) = false -> wt_ptrmsg sc m a ->
  (forall b, wt_ptrmsg sc m b -> (S (Nat.max (vdepth a) (vdepth b)) < n)%nat ->
     run_EqualMessageVT dp sc same n (QV (TMsg m) [] a) (QV (TMsg m) [] b) = Some (EqualVT sc (fun p => same p p) m a b)) /\
  (forall m' b p, m <> m' -> run_EqualMessageVT dp sc same n (QV (TMsg m) [] a) (QV (TMsg m') p b) = Some false) /\
  (forall p, run_EqualMessageVT dp sc same n (QV (TMsg m) [] a) (QV TNone p VNil) = Some false).
Proof.
  intros dp sc same m a n W D F Ta. unfold run_EqualMessageVT, gen_equal_message, fail_if. repeat split.
  - intros b Tb L. rewrite <- (C62_equal dp sc same m a b n) by assumption.
    cbn [qblock qexec]. cbn [qlookup String.eqb Ascii.eqb Bool.eqb]. rewrite Nat.eqb_refl.
    cbn [qexec qeval]. cbn [qlookup String.eqb Ascii.eqb Bool.eqb negb qexec qleave List.length Nat.sub skipn qeval].
    destruct (run_EqualVT dp sc same n (QV (TMsg m) [] a) (QV (TMsg m) [] b)); reflexivity.
  - intros m' b p N. cbn [qblock qexec]. cbn [qlookup String.eqb Ascii.eqb Bool.eqb]. apply Nat.eqb_neq in N. rewrite N. reflexivity.
Qed.
Print Assumptions C62_message.

Example C62_nonvacuous :
  wf_schema ex_sc = true /\ consistent ex_dp ex_sc /\ up_eq_ok ex_sc /\ wt_msg ex_sc 0 ex_v /\ wt_msg ex_sc 0 ex_w /\
  nan_free ex_sc 0 ex_v /\ ex_v <> ex_w /\
  run_EqualVT ex_dp ex_sc (fun _ _ => false) 9 (QV (TMsg 0) [] ex_v) (QV (TMsg 0) [] ex_w) = Some true /\
  run_EqualVT ex_dp ex_sc (fun _ _ => false) 9 (QV (TMsg 0) [] ex_v) (QV (TMsg 0) [] ex_bad) = Some false /\
  run_EqualVT ex_dp ex_sc (fun _ _ => true) 9 (QV (TMsg 0) [] ex_v) (QV (TMsg 0) [] VNil) = Some false.
Proof.
  split; [apply ex_wf|]. split; [intros [|[|m]] H; try reflexivity; now destruct H|]. split; [apply ex_eq_ok|].
  split; [apply ex_wt|]. split; [apply ex_w_wt|]. split; [apply ex_free|]. split; [discriminate|]. repeat split; vm_compute; reflexivity.
Qed.

(** A google.protobuf.Value holding a list of two values, by the code of the package of
    well-known types; the second operand differs from the first in one string. *)
Definition known_text (z : Z) : val :=
  VMsg [VOneof 6 (VMsg [VList [VMsg [VOneof 3 (VStr [z])] [] []; VMsg [VOneof 1 (VInt 0)] [] []]] [] [])] [] [].
Example C62_known_nonvacuous :
  consistent (fun _ => DKnown) known_sc /\ wt_msg known_sc 14 (known_text 97) /\ wt_msg known_sc 14 (known_text 98) /\
  run_EqualVT (fun _ => DKnown) known_sc (fun _ _ => false) 12 (QV (TMsg 14) [] (known_text 97)) (QV (TMsg 14) [] (known_text 97)) = Some true /\
  run_EqualVT (fun _ => DKnown) known_sc (fun _ _ => false) 12 (QV (TMsg 14) [] (known_text 97)) (QV (TMsg 14) [] (known_text 98)) = Some false.
Proof.
  split; [intros m _; apply known_local|]. split; [now apply (check_ok known_sc 9)|]. split; [now apply (check_ok known_sc 9)|].
  split; vm_compute; reflexivity.
Qed.

(** * The text *)
(** The text of the methods of all messages of a file.  [t] gives for each message the Go names
    of the types of its fields. *)
Definition printed_eq (casts : list (nat * string)) (l : list gmsg) (t : list (list (Z * string) * list Z)) : string :=
  String.concat "" (map (fun p => let '(g, (tn, un)) := p in
    print_equal (dispatch_of casts) (names_of casts g) (fun n => find_num "?" n tn) (g_name g) (g_index g) (g_desc g)) (combine l t)).
Example C62_text_ignore_unknown : printed_eq c_ignore_unknown d_ignore_unknown t_ignore_unknown = found e_ignore_unknown. Proof. apply String.eqb_eq; vm_compute; reflexivity. Qed.
Example C62_text_pool : printed_eq c_pool d_pool t_pool = found e_pool. Proof. apply String.eqb_eq; vm_compute; reflexivity. Qed.
Example C62_text_pool_oneof : printed_eq c_pool_oneof d_pool_oneof t_pool_oneof = found e_pool_oneof. Proof. apply String.eqb_eq; vm_compute; reflexivity. Qed.
Example C62_text_pool_slice : printed_eq c_pool_slice d_pool_slice t_pool_slice = found e_pool_slice. Proof. apply String.eqb_eq; vm_compute; reflexivity. Qed.
Example C62_text_proto2 : printed_eq c_proto2 d_proto2 t_proto2 = found e_proto2. Proof. apply String.eqb_eq; vm_compute; reflexivity. Qed.
Example C62_text_proto3opt : printed_eq c_proto3opt d_proto3opt t_proto3opt = found e_proto3opt. Proof. apply String.eqb_eq; vm_compute; reflexivity. Qed.
Example C62_text_unique : printed_eq c_unique d_unique t_unique = found e_unique. Proof. apply String.eqb_eq; vm_compute; reflexivity. Qed.
Example C62_text_unsafe : printed_eq c_unsafe d_unsafe t_unsafe = found e_unsafe. Proof. apply String.eqb_eq; vm_compute; reflexivity. Qed.
Example C62_text_wkt : printed_eq c_wkt d_wkt t_wkt = found e_wkt. Proof. apply String.eqb_eq; vm_compute; reflexivity. Qed.
Example C62_text_grpc : printed_eq c_grpc d_grpc t_grpc = found e_grpc. Proof. apply String.eqb_eq; vm_compute; reflexivity. Qed.
Example C62_text_grpc_inner : printed_eq c_grpc_inner d_grpc_inner t_grpc_inner = found e_grpc_inner. Proof. apply String.eqb_eq; vm_compute; reflexivity. Qed.
Example C62_text_conformance : printed_eq c_conformance d_conformance t_conformance = found e_conformance. Proof. apply String.eqb_eq; vm_compute; reflexivity. Qed.
Example C62_text_conformance2 : printed_eq c_conformance2 d_conformance2 t_conformance2 = found e_conformance2. Proof. apply String.eqb_eq; vm_compute; reflexivity. Qed.
Example C62_text_conformance3 : printed_eq c_conformance3 d_conformance3 t_conformance3 = found e_conformance3. Proof. apply String.eqb_eq; vm_compute; reflexivity. Qed.

(** The same for the well-known types. *)
Definition printed_eq_known (pkg : string) (l : list gmsg) (t : list (list (Z * string) * list Z)) : string :=
  String.concat "" (map (fun p => let '(g, (tn, un)) := p in
    print_equal (fun _ => DKnown) (names_known pkg g) (fun n => (pkg ++ "." ++ find_num "?" n tn)%string) (g_name g) (g_index g) (g_desc g)) (combine l t)).
Example C62_text_any : printed_eq_known "anypb" k_any t_none = found e_any. Proof. apply String.eqb_eq; vm_compute; reflexivity. Qed.
Example C62_text_duration : printed_eq_known "durationpb" k_duration t_none = found e_duration. Proof. apply String.eqb_eq; vm_compute; reflexivity. Qed.
Example C62_text_empty : printed_eq_known "emptypb" k_empty t_none = found e_empty. Proof. apply String.eqb_eq; vm_compute; reflexivity. Qed.
Example C62_text_field_mask : printed_eq_known "fieldmaskpb" k_field_mask t_none = found e_field_mask. Proof. apply String.eqb_eq; vm_compute; reflexivity. Qed.
Example C62_text_struct : printed_eq_known "structpb" k_struct t_struct = found e_struct. Proof. apply String.eqb_eq; vm_compute; reflexivity. Qed.
Example C62_text_timestamp : printed_eq_known "timestamppb" k_timestamp t_none = found e_timestamp. Proof. apply String.eqb_eq; vm_compute; reflexivity. Qed.
Example C62_text_wrappers : printed_eq_known "wrapperspb" k_wrappers t_none = found e_wrappers. Proof. apply String.eqb_eq; vm_compute; reflexivity. Qed.

(** No text is empty. *)
Example C62_text_nonempty :
  forallb (fun l => negb (Nat.eqb (String.length (found l)) 0))
    [e_ignore_unknown; e_pool; e_pool_oneof; e_pool_slice; e_proto2; e_proto3opt; e_unique; e_unsafe; e_wkt; e_grpc; e_grpc_inner; e_conformance; e_conformance2; e_conformance3;
     e_any; e_duration; e_empty; e_field_mask; e_struct; e_timestamp; e_wrappers] = true.
Proof. vm_compute. reflexivity. Qed.
