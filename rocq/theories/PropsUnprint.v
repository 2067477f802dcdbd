(** Property C61: the generated unmarshalling methods as Go code.  The statements printed by
    /repo/features/unmarshal/unmarshal.go, run by the semantics of GoUnmarshal.v, return what
    UnmarshalVT and UnmarshalVTUnsafe of the model return; their text is the text of these
    methods in the *_vtproto.pb.go files of /repo. *)
From Coq Require Import ZArith List Bool Lia String.
From Verif Require Import Base BaseFacts Schema Value Helpers Size Marshal Unmarshal Unsafe Pool Typing RecordSpec MsgSpec
  DecodeSpec PoolSpec RunRel RunFacts UmFacts PoolRun UnsafeFacts GoSyntax GoSem GenSize GoMarshal GenMarshal GoUnmarshal GenUnmarshal
  GenUnmarshalFacts GenUnmarshalRun GoTextSpec GoDescs GoTextUnmarshal GoTextUnsafe KnownSpec WireSpec TargetFacts
  PropsUnmarshal PropsRoundTrip PropsEqual PropsPool PropsUnsafe PropsKnown PropsText PropsPrint ContentSpec EqualSpec CloneSpec Clone PoolFacts Equal RoundTripTop Ex.
Import ListNotations.
Open Scope string_scope.
Open Scope Z_scope.
Open Scope list_scope.

(** * C61 *)
(** Two calls end alike: both return nil and leave the same message, or both return the same
    error.  What the receiver holds after an error is not compared: the printed code may already
    have made room for the elements of a list (unmarshal.go:680-691) that the model does not
    make before it stores one. *)
Inductive alike : res val val -> res val val -> Prop :=
| alike_ok v : alike (Ok v) (Ok v)
| alike_err e v v' : alike (Err e v) (Err e v').
Lemma does_alike sc m r p : does sc m r p -> (exists v, r = Ok v \/ exists e, r = Err e v) -> alike p r.
Proof.
  intros D (v & [->|[e ->]]); cbn in D.
  - destruct D as [-> _]. constructor.
  - destruct D as [v' ->]. constructor.
Qed.
Lemma alike_inv p v : alike p (Ok v) -> p = Ok v.
Proof. intros H. now inversion H. Qed.
Lemma same_total Q r b : same_outcome Q r b -> exists v, r = Ok v \/ exists e, r = Err e v.
Proof. intros H. destruct H; eauto. Qed.

(** The printed UnmarshalVT with new messages in place of pools.  The spare capacity [make]
    leaves, the choice of fields with the unique option and the depth of the call stack do not
    matter; nor does the starting address. *)
Theorem C61_unmarshal : forall dp unique spare sc m data v base,
  wf_schema sc = true -> up_dec_ok sc -> consistent dp sc -> md_foreign (md_of sc m) = false ->
  bytes_ok data = true -> small data -> target sc m v ->
  alike (run_unmarshal sc dp unique false (new_al sc) spare (S (List.length data)) [] base m data v) (UnmarshalVT sc m data v).
Proof.
  intros dp unique spare sc m data v base W U D F B S T.
  eapply does_alike; [apply (msg_sim sc W U dp D unique spare); auto; now apply target_room|].
  destruct (C19_total sc m data v W U B S T) as [(x & E & _)|(e & x & E & _)]; exists x; unfold accepts in E; rewrite E; eauto.
Qed.
Print Assumptions C61_unmarshal.

(** The printed UnmarshalVTUnsafe. *)
Theorem C61_unsafe : forall dp unique spare sc m data v,
  wf_schema sc = true -> up_dec_ok sc -> up_compact sc -> consistent dp sc -> md_foreign (md_of sc m) = false ->
  bytes_ok data = true -> small data -> target sc m v -> trim v = v ->
  alike (run_unmarshal sc dp unique true (new_al sc) spare (S (List.length data)) [] 0 m data v) (UnmarshalVTUnsafe sc (new_al sc) m data v).
Proof.
  intros dp unique spare sc m data v W U X D F B S T C.
  eapply does_alike; [apply (unsafe_sim sc W U dp D unique (new_al sc) spare); auto|].
  - intros. now apply new_room.
  - now apply target_room.
  - eapply same_total. now apply C38_same_content.
Qed.
Print Assumptions C61_unsafe.

(** The printed UnmarshalVT of a message taken from a pool, taking the messages inside it from
    the pools as well, after any history of the pools. *)
Theorem C61_pool : forall dp unique spare sc s m data v al base,
  wf_schema sc = true -> up_dec_ok sc -> up_compact sc -> up_clone_ok sc -> pools_local sc -> consistent dp sc ->
  reachable sc s -> md_pool (md_of sc m) = true -> drawn sc (in_pool s) m v ->
  (forall path m', md_pool (md_of sc m') = true -> drawn sc (in_pool s) m' (al path m')) ->
  bytes_ok data = true -> small data ->
  alike (run_unmarshal sc dp unique false al spare (S (List.length data)) [] base m data v) (UnmarshalVT_pool sc al m data v).
Proof.
  intros dp unique spare sc s m data v al base W U X UC PL D R P Dv A B S. destruct (reachable_ok sc W U X UC PL s R) as [G _].
  eapply does_alike; [apply (pool_sim sc W U dp D unique al spare); auto|].
  - intros path m' P'. eapply rs_room; [exact W|eapply alloc_rs; eauto|]. now apply target_new.
  - eapply rm_room; [exact W|eapply drawn_rm; eauto|]. now apply target_new.
  - eapply same_total. eapply C37_same_error; eauto.
Qed.
Print Assumptions C61_pool.

(** The printed UnmarshalVTUnsafe with pools, into a message with spare capacity. *)
Theorem C61_unsafe_pool : forall dp unique spare sc s m data v al,
  wf_schema sc = true -> up_dec_ok sc -> up_compact sc -> up_clone_ok sc -> pools_local sc -> no_optional_bytes sc ->
  consistent dp sc -> reachable sc s -> md_foreign (md_of sc m) = false -> wt_msg sc m v -> tidy sc m v -> target sc m (trim v) ->
  (forall path m', md_pool (md_of sc m') = true -> drawn sc (in_pool s) m' (al path m')) ->
  bytes_ok data = true -> small data ->
  alike (run_unmarshal sc dp unique true al spare (S (List.length data)) [] 0 m data v) (UnmarshalVTUnsafe sc al m data v).
Proof.
  intros dp unique spare sc s m data v al W U X UC PL N D R F T Ti Tg A B S. destruct (reachable_ok sc W U X UC PL s R) as [G _].
  eapply does_alike; [apply (unsafe_sim sc W U dp D unique al spare); auto|].
  - intros path m' P'. eapply rs_room; [exact W|eapply alloc_rs; eauto|]. now apply target_new.
  - eapply (rm_room sc W _ (keeps sc)); [now apply tidy_rm|apply Tg].
  - eapply same_total. eapply C38_pooled_partial; eauto.
Qed.
Print Assumptions C61_unsafe_pool.

(** What a user relies on.  The printed method always returns; conforming input is decoded as
    DecodeSpec.v says; what the printed MarshalVT returns is read back by the printed
    UnmarshalVT. *)
Theorem C61_returns : forall dp unique spare sc m data v base,
  wf_schema sc = true -> up_dec_ok sc -> consistent dp sc -> md_foreign (md_of sc m) = false ->
  bytes_ok data = true -> small data -> target sc m v ->
  exists v', run_unmarshal sc dp unique false (new_al sc) spare (S (List.length data)) [] base m data v = Ok v' \/
    exists e, run_unmarshal sc dp unique false (new_al sc) spare (S (List.length data)) [] base m data v = Err e v'.
Proof.
  intros dp unique spare sc m data v base W U D F B S T.
  pose proof (C61_unmarshal dp unique spare sc m data v base W U D F B S T) as H.
  revert H. generalize (run_unmarshal sc dp unique false (new_al sc) spare (Datatypes.S (List.length data)) [] base m data v).
  intros r H. destruct H; eauto.
Qed.
Print Assumptions C61_returns.
Theorem C61_decodes : forall dp unique spare sc m bs v v' base,
  wf_schema sc = true -> up_dec_ok sc -> consistent dp sc -> md_foreign (md_of sc m) = false ->
  bytes_ok bs = true -> small bs -> target sc m v ->
  decodes sc m bs v v' ->
  run_unmarshal sc dp unique false (new_al sc) spare (S (List.length bs)) [] base m bs v = Ok v'.
Proof.
  intros dp unique spare sc m bs v v' base W U D F B S T E.
  pose proof (C61_unmarshal dp unique spare sc m bs v base W U D F B S T) as H.
  pose proof (C20_decodes sc m bs v v' W U B S T F E) as A. unfold accepts in A. rewrite A in H. exact (alike_inv _ _ H).
Qed.
Print Assumptions C61_decodes.
Theorem C61_round_trip : forall dp unique spare sc o strict m v rounds n bs,
  wf_schema sc = true -> up_enc_ok sc -> up_dec_ok sc -> up_eq_ok sc -> consistent dp sc -> md_foreign (md_of sc m) = false ->
  wt_msg sc m v -> nan_free sc m v -> decodable sc (fun m x y => up_eq (sc_up sc) m x y = true) m v ->
  SizeVT sc m v < 2 ^ 63 -> (10 <= rounds)%nat -> (vdepth v < n)%nat ->
  run_MarshalVT dp strict sc rounds n (GV (TMsg m) v) = Ok (Some bs) -> small bs ->
  exists v', run_unmarshal sc dp unique false (new_al sc) spare (S (List.length bs)) [] 0 m bs (new_msg (md_of sc m)) = Ok v' /\
    EqualVT sc o m v v' = true.
Proof.
  intros dp unique spare sc o strict m v rounds n bs W UE U UQ D F T N Dc B R L E S.
  rewrite C60_marshal in E; auto; [|now right].
  destruct (C18_equal sc o strict m v bs W UE U UQ F T N Dc E S) as (v' & A & Q). exists v'. split; [|exact Q].
  destruct (marshal_decodes sc _ W UE U strict m v bs F T Dc E S) as [Bb _].
  pose proof (C61_unmarshal dp unique spare sc m bs (new_msg (md_of sc m)) 0 W U D F Bb S (target_new sc W m)) as H.
  unfold accepts in A. rewrite A in H. exact (alike_inv _ _ H).
Qed.
Print Assumptions C61_round_trip.

(** The printed method run on an encoding with every kind of field, on input that ends inside a
    length, and on a group that never ends. *)
Example C61_nonvacuous :
  wf_schema ex_sc = true /\ up_dec_ok ex_sc /\ consistent ex_dp ex_sc /\ md_foreign (md_of ex_sc 0) = false /\
  target ex_sc 0 (new_msg (md_of ex_sc 0)) /\
  (exists bs v, run_MarshalVT ex_dp true ex_sc 10 9 (GV (TMsg 0) ex_v) = Ok (Some bs) /\
    run_unmarshal ex_sc ex_dp (fun _ _ => false) false (new_al ex_sc) (fun _ _ _ => 3) 97 [] 0 0 bs (new_msg (md_of ex_sc 0)) = Ok v /\
    member v 4 = VMap [(VStr [98; 99], ex_req (-7)); (VStr [97], ex_req 1)] /\
    EqualVT ex_sc (fun _ => false) 0 ex_v v = true) /\
  run_unmarshal ex_sc ex_dp (fun _ _ => false) false (new_al ex_sc) (fun _ _ _ => 0) 5 [] 0 0 [26; 255; 255] (new_msg (md_of ex_sc 0))
    = Err EUnexpectedEOF (new_msg (md_of ex_sc 0)).
Proof.
  split; [reflexivity|]. split; [apply ex_dec_ok|]. split.
  { intros [|[|m]] H; try reflexivity. now destruct H. }
  split; [reflexivity|]. split; [apply target_new; reflexivity|]. split.
  - do 2 eexists. split; [vm_compute; reflexivity|]. split; [vm_compute; reflexivity|]. split; vm_compute; reflexivity.
  - vm_compute. reflexivity.
Qed.
Definition pl_dp (m : nat) : dispatch := match m with 0%nat | 1%nat | 2%nat => DLocal | _ => DOther end.
(** With pools: the elements kept in the list of a recycled Node are filled again. *)
Example C61_pool_nonvacuous :
  reachable pl_sc pl_pool /\ drawn pl_sc (in_pool pl_pool) 0 pl_node /\ consistent pl_dp pl_sc /\
  UnmarshalVT_pool pl_sc (new_al pl_sc) 0 pl_data pl_node <> UnmarshalVT_pool pl_sc (new_al pl_sc) 0 pl_data (new_msg (md_of pl_sc 0)) /\
  run_unmarshal pl_sc pl_dp (fun _ _ => false) false (new_al pl_sc) (fun _ _ _ => 0) 99 [] 0 0 pl_data pl_node =
    UnmarshalVT_pool pl_sc (new_al pl_sc) 0 pl_data pl_node.
Proof.
  split; [apply pl_reach|]. split; [left; right; now left|]. split; [|split; [vm_compute; discriminate|vm_compute; reflexivity]].
  intros [|[|[|m]]] H; try reflexivity. now destruct H.
Qed.
(** The references made by the printed UnmarshalVTUnsafe. *)
Example C61_unsafe_nonvacuous :
  run_unmarshal pl_sc pl_dp (fun _ _ => false) true (new_al pl_sc) (fun _ _ _ => 0) 99 [] 0 0 us_data (new_msg (md_of pl_sc 0)) = Ok us_live.
Proof. vm_compute. reflexivity. Qed.

(** * The text *)
(** Messages of the file generated with pools (unmarshal.go asks ShouldPool). *)
Definition pooled_of (l : list gmsg) (m : nat) : bool :=
  existsb (fun g => Nat.eqb (g_index g) m && md_pool (g_desc g)) l.
(** The text of UnmarshalVT or UnmarshalVTUnsafe of all messages of a file.  [t] gives for each
    message the Go names of the types of its fields and the numbers of the fields with the
    unique option (tools/gotext.py reads them from the .proto files). *)
Definition printed_um (unsafe : bool) (casts : list (nat * string)) (l : list gmsg) (t : list (list (Z * string) * list Z)) : string :=
  String.concat "" (map (fun p => let '(g, (tn, un)) := p in
    gen_unmarshal (dispatch_of casts) (pooled_of l) (fun n => existsb (Z.eqb n) un) unsafe (names_of casts g)
      (fun n => find_num "?" n tn) (g_name g) (sorted_desc (g_desc g))) (combine l t)).
Example C61_text_ignore_unknown : printed_um false c_ignore_unknown d_ignore_unknown t_ignore_unknown = found u_ignore_unknown /\ printed_um true c_ignore_unknown d_ignore_unknown t_ignore_unknown = found v_ignore_unknown. Proof. split; apply String.eqb_eq; vm_compute; reflexivity. Qed.
Example C61_text_pool : printed_um false c_pool d_pool t_pool = found u_pool /\ printed_um true c_pool d_pool t_pool = found v_pool. Proof. split; apply String.eqb_eq; vm_compute; reflexivity. Qed.
Example C61_text_pool_oneof : printed_um false c_pool_oneof d_pool_oneof t_pool_oneof = found u_pool_oneof /\ printed_um true c_pool_oneof d_pool_oneof t_pool_oneof = found v_pool_oneof. Proof. split; apply String.eqb_eq; vm_compute; reflexivity. Qed.
Example C61_text_pool_slice : printed_um false c_pool_slice d_pool_slice t_pool_slice = found u_pool_slice /\ printed_um true c_pool_slice d_pool_slice t_pool_slice = found v_pool_slice. Proof. split; apply String.eqb_eq; vm_compute; reflexivity. Qed.
Example C61_text_proto2 : printed_um false c_proto2 d_proto2 t_proto2 = found u_proto2 /\ printed_um true c_proto2 d_proto2 t_proto2 = found v_proto2. Proof. split; apply String.eqb_eq; vm_compute; reflexivity. Qed.
Example C61_text_proto3opt : printed_um false c_proto3opt d_proto3opt t_proto3opt = found u_proto3opt /\ printed_um true c_proto3opt d_proto3opt t_proto3opt = found v_proto3opt. Proof. split; apply String.eqb_eq; vm_compute; reflexivity. Qed.
Example C61_text_unique : printed_um false c_unique d_unique t_unique = found u_unique /\ printed_um true c_unique d_unique t_unique = found v_unique. Proof. split; apply String.eqb_eq; vm_compute; reflexivity. Qed.
Example C61_text_unsafe : printed_um false c_unsafe d_unsafe t_unsafe = found u_unsafe /\ printed_um true c_unsafe d_unsafe t_unsafe = found v_unsafe. Proof. split; apply String.eqb_eq; vm_compute; reflexivity. Qed.
Example C61_text_wkt : printed_um false c_wkt d_wkt t_wkt = found u_wkt /\ printed_um true c_wkt d_wkt t_wkt = found v_wkt. Proof. split; apply String.eqb_eq; vm_compute; reflexivity. Qed.
Example C61_text_grpc : printed_um false c_grpc d_grpc t_grpc = found u_grpc /\ printed_um true c_grpc d_grpc t_grpc = found v_grpc. Proof. split; apply String.eqb_eq; vm_compute; reflexivity. Qed.
Example C61_text_grpc_inner : printed_um false c_grpc_inner d_grpc_inner t_grpc_inner = found u_grpc_inner /\ printed_um true c_grpc_inner d_grpc_inner t_grpc_inner = found v_grpc_inner. Proof. split; apply String.eqb_eq; vm_compute; reflexivity. Qed.
Example C61_text_conformance : printed_um false c_conformance d_conformance t_conformance = found u_conformance /\ printed_um true c_conformance d_conformance t_conformance = found v_conformance. Proof. split; apply String.eqb_eq; vm_compute; reflexivity. Qed.
Example C61_text_conformance2 : printed_um false c_conformance2 d_conformance2 t_conformance2 = found u_conformance2 /\ printed_um true c_conformance2 d_conformance2 t_conformance2 = found v_conformance2. Proof. split; apply String.eqb_eq; vm_compute; reflexivity. Qed.
Example C61_text_conformance3 : printed_um false c_conformance3 d_conformance3 t_conformance3 = found u_conformance3 /\ printed_um true c_conformance3 d_conformance3 t_conformance3 = found v_conformance3. Proof. split; apply String.eqb_eq; vm_compute; reflexivity. Qed.

(** The same for the well-known types. *)
Definition printed_um_known (unsafe : bool) (pkg : string) (l : list gmsg) (t : list (list (Z * string) * list Z)) : string :=
  String.concat "" (map (fun p => let '(g, (tn, un)) := p in
    gen_unmarshal (fun _ => DKnown) (fun _ => false) (fun n => existsb (Z.eqb n) un) unsafe (names_known pkg g)
      (fun n => (pkg ++ "." ++ find_num "?" n tn)%string) (g_name g) (sorted_desc (g_desc g))) (combine l t)).
Definition t_none : list (list (Z * string) * list Z) := repeat ([], []) 10.
Definition t_struct : list (list (Z * string) * list Z) :=
 [([(1, "Value")], []); ([(1, "NullValue"); (5, "Struct"); (6, "ListValue")], []); ([(1, "Value")], [])].
Example C61_text_any : printed_um_known false "anypb" k_any t_none = found u_any /\ printed_um_known true "anypb" k_any t_none = found v_any. Proof. split; apply String.eqb_eq; vm_compute; reflexivity. Qed.
Example C61_text_duration : printed_um_known false "durationpb" k_duration t_none = found u_duration /\ printed_um_known true "durationpb" k_duration t_none = found v_duration. Proof. split; apply String.eqb_eq; vm_compute; reflexivity. Qed.
Example C61_text_empty : printed_um_known false "emptypb" k_empty t_none = found u_empty /\ printed_um_known true "emptypb" k_empty t_none = found v_empty. Proof. split; apply String.eqb_eq; vm_compute; reflexivity. Qed.
Example C61_text_field_mask : printed_um_known false "fieldmaskpb" k_field_mask t_none = found u_field_mask /\ printed_um_known true "fieldmaskpb" k_field_mask t_none = found v_field_mask. Proof. split; apply String.eqb_eq; vm_compute; reflexivity. Qed.
Example C61_text_struct : printed_um_known false "structpb" k_struct t_struct = found u_struct /\ printed_um_known true "structpb" k_struct t_struct = found v_struct. Proof. split; apply String.eqb_eq; vm_compute; reflexivity. Qed.
Example C61_text_timestamp : printed_um_known false "timestamppb" k_timestamp t_none = found u_timestamp /\ printed_um_known true "timestamppb" k_timestamp t_none = found v_timestamp. Proof. split; apply String.eqb_eq; vm_compute; reflexivity. Qed.
Example C61_text_wrappers : printed_um_known false "wrapperspb" k_wrappers t_none = found u_wrappers /\ printed_um_known true "wrapperspb" k_wrappers t_none = found v_wrappers. Proof. split; apply String.eqb_eq; vm_compute; reflexivity. Qed.

(** No text is empty, and the descriptors, as the printed methods see them, form well-formed
    schemas (C59_wf). *)
Example C61_text_nonempty :
  forallb (fun l => negb (Nat.eqb (String.length (found l)) 0))
    [u_ignore_unknown; u_pool; u_pool_oneof; u_pool_slice; u_proto2; u_proto3opt; u_unique; u_unsafe; u_wkt; u_grpc; u_grpc_inner;
     u_conformance; u_conformance2; u_conformance3; u_any; u_duration; u_empty; u_field_mask; u_struct; u_timestamp; u_wrappers] = true /\
  forallb (fun l => negb (Nat.eqb (String.length (found l)) 0))
    [v_ignore_unknown; v_pool; v_pool_oneof; v_pool_slice; v_proto2; v_proto3opt; v_unique; v_unsafe; v_wkt; v_grpc; v_grpc_inner;
     v_conformance; v_conformance2; v_conformance3] = true.
Proof. split; vm_compute; reflexivity. Qed.
