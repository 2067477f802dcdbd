(** Property C64: the generated pools as Go code.  The statements printed by
    /repo/features/pool/pool.go for ResetVT and ReturnToVTPool, run by the semantics of GoPool.v,
    do what the model of Pool.v does; so the properties of pooled messages (C36, C37, C49) hold of
    programs that run the printed code.  The text is the text of the pools, methods and functions
    in the *_vtproto.pb.go files of /repo. *)
From Coq Require Import ZArith List Bool Lia String.
From Verif Require Import Base Schema Value Helpers Typing Unmarshal Equal EqualSpec Clone CloneSpec Pool PoolSpec MsgSpec DecodeSpec ContentSpec WireSpec RecordSpec Ex GoMarshal GoUnmarshal
  GoSyntax GoSem GoEqual GoClone GoPool GenSize GenEqual GenClone GenPool GenPoolFacts GenUnmarshal GoTextSpec GoDescs GoTextPool
  PropsEqual PropsClone PropsPool PropsText PropsUnprint PropsClPrint.
Import ListNotations.
Open Scope string_scope.
Open Scope Z_scope.
Open Scope list_scope.

(** * C64 *)
(** The printed ResetVT leaves the receiver as the model says, hands the same objects to the
    pools in the same order, and panics when the model does.  In the semantics the storage of a
    list of strings or byte slices keeps the elements that refer to memory: the theorem also says
    that none are left. *)
Theorem C64_reset : forall sc n m v,
  wf_schema sc = true -> md_pool (md_of sc m) = true -> (vdepth v < n)%nat ->
  run_ResetVT sc n m v = ResetVT sc m v.
Proof. intros sc n m v W P L. unfold ResetVT. apply run_ResetVT_ok; auto. Qed.
Print Assumptions C64_reset.

(** The printed ReturnToVTPool hands the same objects to the pools as the model. *)
Theorem C64_return : forall sc n m v,
  wf_schema sc = true -> md_pool (md_of sc m) = true -> (vdepth v < n)%nat ->
  (do r <- run_ReturnToVTPool sc n m v; Ok (snd r)) = ReturnToVTPool sc m v.
Proof.
  intros sc n m v W P L. unfold run_ReturnToVTPool, run_return, shouldpool, gen_return, ReturnToVTPool. rewrite P. cbn [pexec pstart q_m].
  destruct v as [| | | | | | | |s u h| |]; try reflexivity.
  cbn [pblock pexec pcall q_m q_mm q_vars q_puts pstart]. rewrite C64_reset by assumption.
  destruct (ResetVT sc m (VMsg s u h)) as [[y q]|? []| |]; reflexivity.
Qed.
Print Assumptions C64_return.

(** They complete on every message unless a list of messages without pool contains nil
    (C49). *)
Theorem C64_no_panic : forall sc n m v,
  wf_schema sc = true -> pools_local sc -> md_pool (md_of sc m) = true -> v = VNil \/ wt_msg sc m v -> no_nil_elements sc m v ->
  (vdepth v < n)%nat ->
  (exists v' q, run_ResetVT sc n m v = Ok (v', q)) /\ exists v' q, run_ReturnToVTPool sc n m v = Ok (v', q).
Proof.
  intros sc n m v W PL P T N L. destruct (C49_no_panic_partial sc m v W PL P T N) as [(v' & q & E) [q' E']].
  split; [exists v', q; now rewrite C64_reset|]. rewrite <- (C64_return sc n m v W P L) in E'.
  destruct (run_ReturnToVTPool sc n m v) as [[x y]| | |]; try discriminate. eauto.
Qed.
Print Assumptions C64_no_panic.

(** One step of a program that runs the printed code of ResetVT, ReturnToVTPool, CloneVT and
    UnmarshalVT (the latter on messages taken from a pool; a message it fails on is dropped), and
    is otherwise free to edit, make and forget messages.  Pools may lose objects at any time. *)
Inductive printed_step (dp : nat -> dispatch) (sc : schema) : pstate -> pstate -> Prop :=
| pr_lose p p' l : incl p' p -> printed_step dp sc (PState p l) (PState p' l)
| pr_get p l m v : md_pool (md_of sc m) = true -> drawn sc p m v -> printed_step dp sc (PState p l) (PState p ((m, v) :: l))
| pr_unmarshal p l m v al unique spare base data v' :
    md_pool (md_of sc m) = true -> drawn sc p m v ->
    (forall path m', md_pool (md_of sc m') = true -> drawn sc p m' (al path m')) ->
    bytes_ok data = true -> small data ->
    run_unmarshal sc dp unique false al spare (S (List.length data)) [] base m data v = Ok v' ->
    printed_step dp sc (PState p l) (PState p ((m, v') :: l))
| pr_edit p l1 l2 m v v' : wt_msg sc m v' -> tidy sc m v' ->
    printed_step dp sc (PState p (l1 ++ (m, v) :: l2)) (PState p (l1 ++ (m, v') :: l2))
| pr_make p l m v : wt_msg sc m v -> tidy sc m v -> md_foreign (md_of sc m) = false ->
    printed_step dp sc (PState p l) (PState p ((m, v) :: l))
| pr_forget p l1 l2 e : printed_step dp sc (PState p (l1 ++ e :: l2)) (PState p (l1 ++ l2))
| pr_reset p l1 l2 m v n v' q : md_pool (md_of sc m) = true -> (vdepth v < n)%nat -> run_ResetVT sc n m v = Ok (v', q) ->
    printed_step dp sc (PState p (l1 ++ (m, v) :: l2)) (PState (q ++ p) (l1 ++ (m, v') :: l2))
| pr_return p l1 l2 m v n v' q : md_pool (md_of sc m) = true -> (vdepth v < n)%nat -> run_ReturnToVTPool sc n m v = Ok (v', q) ->
    printed_step dp sc (PState p (l1 ++ (m, v) :: l2)) (PState (q ++ p) (l1 ++ l2))
| pr_clone p l m v al n c : md_foreign (md_of sc m) = false -> In (m, v) l -> wt_msg sc m v -> no_optional_bytes sc ->
    (forall path m', md_pool (md_of sc m') = true -> drawn sc p m' (al path m')) ->
    (forall path m', md_pool (md_of sc m') = false -> al path m' = new_msg (md_of sc m')) ->
    (vdepth v < n)%nat -> run_CloneVT dp sc al n (CV (TMsg m) (Some []) v) = Some (CV (TMsg m) None c) ->
    printed_step dp sc (PState p l) (PState p ((m, c) :: l)).
Inductive printed_history (dp : nat -> dispatch) (sc : schema) : pstate -> Prop :=
| ph_start : printed_history dp sc (PState [] [])
| ph_step a b : printed_history dp sc a -> printed_step dp sc a b -> printed_history dp sc b.

(** Every state such a program reaches is a state of the histories of C36 and C37. *)
Theorem C64_history : forall dp sc s,
  wf_schema sc = true -> consistent dp sc -> up_dec_ok sc -> up_compact sc -> up_clone_ok sc -> up_eq_ok sc -> pools_local sc ->
  printed_history dp sc s -> reachable sc s.
Proof.
  intros dp sc s W D UD UX UC UE PL H. induction H as [|a b Ha IH Hs]; [apply reach_start|].
  inversion Hs as [p p' l Hl|p l m v P Dr|p l m v al unique spare base data v' P Dr A B S E|p l1 l2 m v v' T Ti|p l m v T Ti F|p l1 l2 e
    |p l1 l2 m v n v' q P L E|p l1 l2 m v n v' q P L E|p l m v al n c F Hin T N A1 A2 L E]; subst.
  - eapply reach_step; [exact IH|]. now apply ps_lose.
  - eapply reach_step; [exact IH|]. now apply ps_get.
  - eapply reach_step; [eapply reach_step; [exact IH|apply (ps_get sc p l m v P Dr)]|].
    apply (ps_unmarshal sc p [] l m v al data v'); [now apply PL|exact A|]. left.
    pose proof (C61_pool dp unique spare sc (PState p l) m data v al base W UD UX UC PL D IH P Dr A B S) as K.
    rewrite E in K. now inversion K.
  - eapply reach_step; [exact IH|]. now apply ps_edit.
  - eapply reach_step; [exact IH|]. now apply ps_make.
  - eapply reach_step; [exact IH|]. now apply ps_forget.
  - eapply reach_step; [exact IH|]. apply ps_reset; [exact P|]. now rewrite <- (C64_reset sc n).
  - eapply reach_step; [exact IH|]. apply ps_return; [exact P|]. now rewrite <- (C64_return sc n), E.
  - eapply reach_step; [exact IH|].
    assert (run_CloneVT dp sc al n (CV (TMsg m) (Some []) v) = Some (CV (TMsg m) None (CloneVT_from sc al m v))) as E'.
    { apply C63_clone; auto; [|now right]. intros pth m'.
      destruct (md_pool (md_of sc m')) eqn:P; [|rewrite A2 by exact P; now apply new_blank].
      exact (proj1 (C36_like_new_partial sc (PState p l) m' (al pth m') (fun _ => false) W UD UX UC UE PL N IH P (A1 pth m' P))). }
    rewrite E' in E. injection E as <-. now apply ps_clone.
Qed.
Print Assumptions C64_history.

(** What a user relies on: whatever a program that runs the printed code has done, a message
    taken from a pool holds nothing of its former life, and neither does what is left in the
    storage of its lists. *)
Theorem C64_recycled : forall dp sc s m v,
  wf_schema sc = true -> consistent dp sc -> up_dec_ok sc -> up_compact sc -> up_clone_ok sc -> up_eq_ok sc -> pools_local sc ->
  printed_history dp sc s -> In (m, v) (in_pool s) -> emptied sc m v /\ tidy sc m v.
Proof. intros dp sc s m v W D UD UX UC UE PL H. apply C36_emptied; auto. now apply (C64_history dp). Qed.
Print Assumptions C64_recycled.

(** Unmarshalling into it, by the printed code and with sub-messages from the pools, gives the
    same error as unmarshalling into a new message, or succeeds; if no pooled message has a bytes
    field with presence, with the same content. *)
Theorem C64_unmarshal : forall dp sc s m v al unique spare base data,
  wf_schema sc = true -> consistent dp sc -> up_dec_ok sc -> up_compact sc -> up_clone_ok sc -> up_eq_ok sc -> pools_local sc ->
  printed_history dp sc s -> md_pool (md_of sc m) = true -> drawn sc (in_pool s) m v ->
  (forall path m', md_pool (md_of sc m') = true -> drawn sc (in_pool s) m' (al path m')) ->
  bytes_ok data = true -> small data ->
  let r := run_unmarshal sc dp unique false al spare (S (List.length data)) [] base m data v in
  let r0 := UnmarshalVT sc m data (new_msg (md_of sc m)) in
  (forall e, (exists x, r = Err e x) <-> (exists x, r0 = Err e x)) /\
  (forall x, r = Ok x -> exists y, r0 = Ok y /\ (no_optional_bytes sc -> same_content sc m x y)) /\
  (forall y, r0 = Ok y -> exists x, r = Ok x).
Proof.
  intros dp sc s m v al unique spare base data W D UD UX UC UE PL H P Dr A B S. cbn zeta.
  pose proof (C64_history dp sc s W D UD UX UC UE PL H) as R.
  pose proof (C61_pool dp unique spare sc s m data v al base W UD UX UC PL D R P Dr A B S) as K.
  pose proof (C37_same_error sc s m data v al W UD UX UC PL R P Dr A B S) as Q.
  pose proof (fun N => C37_same_result_partial sc s m data v al W UD UX UC PL N R P Dr A B S) as Q'.
  revert K Q Q'. generalize (run_unmarshal sc dp unique false al spare (Datatypes.S (List.length data)) [] base m data v).
  generalize (UnmarshalVT_pool sc al m data v) (UnmarshalVT sc m data (new_msg (md_of sc m))).
  intros a b r K Q Q'. inversion Q; subst; inversion K; subst.
  - split; [intros e; split; intros [x E]; discriminate|]. split; [|eauto]. intros x [= <-]. eexists. split; [reflexivity|].
    intros N. specialize (Q' N). now inversion Q'.
  - split; [intros e'; split; intros [x [= <- <-]]; eauto|]. split; [discriminate|discriminate].
Qed.
Print Assumptions C64_unmarshal.

(** The example history of C36, run by the printed code: take a Node from the pool, unmarshal into
    it, hand it back. *)
Example C64_nonvacuous :
  consistent pl_dp pl_sc /\ printed_history pl_dp pl_sc pl_pool /\ pl_node <> new_msg (md_of pl_sc 0) /\ In (0%nat, pl_node) (in_pool pl_pool) /\
  run_ResetVT pl_sc 9 0 pl_live = Ok (pl_node, [(1%nat, pl_leaf)]) /\
  run_ReturnToVTPool pl_sc 9 0 pl_live = Ok (pl_node, [(1%nat, pl_leaf); (0%nat, pl_node)]).
Proof.
  assert (consistent pl_dp pl_sc) as D by (intros [|[|[|m]]] H; try reflexivity; now destruct H).
  split; [exact D|]. split.
  - eapply ph_step with (a := PState [] [(0%nat, pl_live)]).
    + eapply ph_step; [apply ph_start|].
      apply (pr_unmarshal pl_dp pl_sc [] [] 0 (new_msg (md_of pl_sc 0)) (new_al pl_sc) (fun _ _ => false) (fun _ _ _ => 0) 0 pl_data);
        [reflexivity|now right|now right|reflexivity|reflexivity|vm_compute; reflexivity].
    + apply (pr_return pl_dp pl_sc [] [] [] 0 pl_live 9 pl_node [(1%nat, pl_leaf); (0%nat, pl_node)]); [reflexivity|vm_compute; lia|vm_compute; reflexivity].
  - split; [discriminate|]. split; [cbn; auto|]. split; vm_compute; reflexivity.
Qed.

(** The semantics sees strings left in the storage of a list: without clear they would be. *)
Definition sl_sc : schema := mkS [mkM [mkF 1 0 (TField (LRepeated false) KString)] 1 true [] true false] no_up.
Definition sl_v : val := VMsg [VList [VStr [97]; VStr []]] [] [].
Example C64_clear_matters :
  run_ResetVT sl_sc 3 0 sl_v = Ok (VMsg [VList []] [] [[]], []) /\
  (do st <- pexec sl_sc 0 (fun _ _ => Panic) (fun _ _ => Panic)
     (PIfSome (pblock [PSave 0 0; PCall PM 0 HReset; PRestore 0 0])) (pstart sl_v); Ok (q_m st)) = Ok (VMsg [VList []] [] [[VStr [97]]]).
Proof. split; vm_compute; reflexivity. Qed.

(** * The text *)
(** p.ShouldPool for the messages of a file. *)
Definition pools_of (l : list gmsg) (m : nat) : bool := existsb (fun g => Nat.eqb (g_index g) m && md_pool (g_desc g)) l.
(** The text for all messages of a file. *)
Definition printed_pool (casts : list (nat * string)) (l : list gmsg) : string := printed (fun _ => print_pool (pools_of l)) casts l.
Example C64_text_ignore_unknown : printed_pool c_ignore_unknown d_ignore_unknown = found o_ignore_unknown. Proof. apply String.eqb_eq; vm_compute; reflexivity. Qed.
Example C64_text_pool : printed_pool c_pool d_pool = found o_pool. Proof. apply String.eqb_eq; vm_compute; reflexivity. Qed.
Example C64_text_pool_oneof : printed_pool c_pool_oneof d_pool_oneof = found o_pool_oneof. Proof. apply String.eqb_eq; vm_compute; reflexivity. Qed.
Example C64_text_pool_slice : printed_pool c_pool_slice d_pool_slice = found o_pool_slice. Proof. apply String.eqb_eq; vm_compute; reflexivity. Qed.
Example C64_text_proto2 : printed_pool c_proto2 d_proto2 = found o_proto2. Proof. apply String.eqb_eq; vm_compute; reflexivity. Qed.
Example C64_text_proto3opt : printed_pool c_proto3opt d_proto3opt = found o_proto3opt. Proof. apply String.eqb_eq; vm_compute; reflexivity. Qed.
Example C64_text_unique : printed_pool c_unique d_unique = found o_unique. Proof. apply String.eqb_eq; vm_compute; reflexivity. Qed.
Example C64_text_unsafe : printed_pool c_unsafe d_unsafe = found o_unsafe. Proof. apply String.eqb_eq; vm_compute; reflexivity. Qed.
Example C64_text_wkt : printed_pool c_wkt d_wkt = found o_wkt. Proof. apply String.eqb_eq; vm_compute; reflexivity. Qed.
Example C64_text_grpc : printed_pool c_grpc d_grpc = found o_grpc. Proof. apply String.eqb_eq; vm_compute; reflexivity. Qed.
Example C64_text_grpc_inner : printed_pool c_grpc_inner d_grpc_inner = found o_grpc_inner. Proof. apply String.eqb_eq; vm_compute; reflexivity. Qed.
Example C64_text_conformance : printed_pool c_conformance d_conformance = found o_conformance. Proof. apply String.eqb_eq; vm_compute; reflexivity. Qed.
Example C64_text_conformance2 : printed_pool c_conformance2 d_conformance2 = found o_conformance2. Proof. apply String.eqb_eq; vm_compute; reflexivity. Qed.
Example C64_text_conformance3 : printed_pool c_conformance3 d_conformance3 = found o_conformance3. Proof. apply String.eqb_eq; vm_compute; reflexivity. Qed.

(** The files of /repo with pools; in the others nothing is printed. *)
Example C64_text_nonempty :
  forallb (fun l => negb (Nat.eqb (String.length (found l)) 0)) [o_pool; o_pool_oneof; o_pool_slice; o_grpc; o_grpc_inner] = true.
Proof. vm_compute. reflexivity. Qed.
