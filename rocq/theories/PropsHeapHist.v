(** C55: a program that uses pools cannot be told from one without. *)
From Coq Require Import ZArith List Bool Lia.
From Verif Require Import PoolSpec.
From Verif Require Import Heap HeapSpec HeapDec HeapOwnSpec HeapOwnFacts HeapSim HeapSimRun HeapNil HeapCloneSpec HeapHist HeapHistFacts.
From Verif Require Import Base Schema Value Typing RecordSpec MsgSpec DecodeSpec ContentSpec CloneSpec Unmarshal Marshal Size Equal Clone Pool PoolFacts RunRel EncRel.
From Verif Require Import PropsPool PropsHeap PropsHeapSim.
Import ListNotations.
Open Scope Z_scope.

(** The contracts with upstream (no upstream decoder is called if no message lacks vtproto
    helpers and none has extensions). *)
Definition pools_ok (sc : schema) (uunm uext : nat -> nat -> list Z -> list obj -> bool * list obj) (uclone : nat -> hval -> list obj -> option (hval * list obj)) : Prop :=
  wf_schema sc = true /\ pools_local sc /\ up_dec_ok sc /\ up_compact sc /\ up_no_nil sc /\
  up_owns sc true true false (fun md => md_foreign md = true) (up_dec (sc_up sc)) uunm /\
  up_owns sc true true false (fun md => md_ext md <> []) (up_ext (sc_up sc)) uext /\
  up_clone_ok sc /\ up_clone_more sc /\ up_clone_owns sc uclone.
(** A program starts without objects; [ps] are the choices sync.Pool will make. *)
Definition boot (ps : list nat) : world := World (mkMem [] [] ps) [] [].
Definition blank_desk : desk := Desk [] [].
Definition at_both {A B} (l : list A) (l' : list B) (R : nat -> A -> B -> Prop) : Prop :=
  forall i, match nth_error l i, nth_error l' i with Some x, Some y => R i x y | None, None => True | _, _ => False end.
(** [zone i] are the objects of the [i]-th message the program holds: every message has its
    own, no buffer lies there, and no object in a pool. *)
Definition separate (w : world) (zone : nat -> nat -> Prop) : Prop :=
  (forall i j b, zone i b -> zone j b -> i = j) /\ (forall i b, zone i b -> ~ In b (w_bufs w)) /\ (forall i m b, zone i b -> ~ In (m, b) (free (w_mem w))).

Lemma zones pc sc w d : inv sc pc w d -> separate w (fun i b => exists m a, nth_error (w_msgs w) i = Some (m, a) /\ pc b = S a).
Proof.
  intros I. split; [|split].
  - intros i j b (m & a & Ei & E) (m' & a' & Ej & E'). assert (a = a') as <- by congruence. apply (nodup_nth snd (w_msgs w) i j (m, a) (m', a)); auto. apply (i_held _ _ _ _ I).
  - intros i b (m & a & _ & E) Hb. destruct (In_nth_error _ _ Hb) as [k Ek]. pose proof (f2_nth _ _ _ (i_bufs _ _ _ _ I) k) as X. rewrite Ek in X.
    destruct (nth_error (d_bufs d) k); [|contradiction]. destruct X as (_ & X & _). congruence.
  - intros i m b (m' & a & Ei & E) Hb. assert (pc b = S b) as E' by (eapply pool_color; [exact I|]; apply in_map_iff; exists (m, b); auto). assert (a = b) as -> by congruence.
    apply (i_apart _ _ _ _ I b); apply in_map_iff; [exists (m', b)|exists (m, b)]; split; auto. eapply nth_error_In; eauto.
Qed.

(** Whatever a program does with its messages (take them from the pools, unmarshal, set
    members, clone, reset, return, drop them) and whatever sync.Pool does (which object it hands
    out, what it drops), nothing panics and every call ends as it does for a program
    without pools, which works on values: same errors, same buffers, as many messages. *)
Theorem C55_same_errors : forall sc grow uunm uext uclone ps os,
  pools_ok sc uunm uext uclone -> Forall (op_ok sc) os ->
  exists w, hrun sc grow uunm uext uclone os (boot ps) = Some (fst (prun sc os blank_desk), w) /\
    map fst (w_msgs w) = map fst (d_msgs (snd (prun sc os blank_desk))) /\
    at_both (w_bufs w) (d_bufs (snd (prun sc os blank_desk))) (fun _ a bs => nth_error (heap (w_mem w)) a = Some (OBytes bs)).
Proof.
  intros sc grow uunm uext uclone ps os (W & PL & UD & UC & UN & UU & UE & UCL & UCM & UK) K.
  destruct (run_follows sc W UD UC UN PL grow uunm uext uclone UU UE UCL UCM UK os _ _ _ (inv_start sc ps) K) as (w & pc & E & I). change (Desk [] []) with blank_desk in *. exists w. split; [exact E|]. split.
  - pose proof (i_msgs _ _ _ _ I) as X. clear - X. revert X. generalize (w_msgs w) (d_msgs (snd (prun sc os blank_desk))). induction 1 as [|x y l l' (H & _) _ IH]; [reflexivity|]. cbn. now rewrite H, IH.
  - intros i. pose proof (f2_nth _ _ _ (i_bufs _ _ _ _ I) i) as X. destruct (nth_error (w_bufs w) i), (nth_error (d_bufs _) i); auto. apply X.
Qed.
Print Assumptions C55_same_errors.

(** If no pooled message has a bytes field with presence (C36), the messages it holds also
    have the content the other program computes, and no two of them share memory. *)
Theorem C55_same_content_partial : forall sc grow uunm uext uclone ps os,
  pools_ok sc uunm uext uclone -> no_optional_bytes sc -> Forall (op_ok sc) os ->
  exists w zone, hrun sc grow uunm uext uclone os (boot ps) = Some (fst (prun sc os blank_desk), w) /\ separate w zone /\
    at_both (w_msgs w) (d_msgs (snd (prun sc os blank_desk))) (fun i x y =>
      fst x = fst y /\ exists t, owns true true false none (heap (w_mem w)) (zone i) t (HPtr (snd x)) /\ wt_msg sc (fst x) t /\ same_content sc (fst x) t (snd y)).
Proof.
  intros sc grow uunm uext uclone ps os (W & PL & UD & UC & UN & UU & UE & UCL & UCM & UK) N K.
  destruct (run_follows sc W UD UC UN PL grow uunm uext uclone UU UE UCL UCM UK os _ _ _ (inv_start sc ps) K) as (w & pc & E & I). change (Desk [] []) with blank_desk in *. exists w. eexists. split; [exact E|]. split; [eapply zones; exact I|].
  intros i. pose proof (f2_nth _ _ _ (i_msgs _ _ _ _ I) i) as X. destruct (nth_error (w_msgs w) i) as [[m a]|] eqn:Ei, (nth_error (d_msgs _) i) as [[m' y]|]; auto.
  destruct X as (Em & F & T & t & [R Nn] & O). cbn [fst snd] in *. subst m'. split; [reflexivity|]. exists t. split; [|split].
  - eapply own_mono; [|exact O]. unfold mine. intros b Hb. eauto.
  - eapply rs_wt; eauto. apply T.
  - apply rs_content; auto. destruct T as [T _]. intros ->. inversion T.
Qed.
Print Assumptions C55_same_content_partial.

(** So encoding them gives the same bytes. *)
Theorem C55_same_bytes_partial : forall sc grow uunm uext uclone ps os strict,
  pools_ok sc uunm uext uclone -> up_enc_ok sc -> up_trim sc -> no_optional_bytes sc -> Forall (op_ok sc) os ->
  exists w zone, hrun sc grow uunm uext uclone os (boot ps) = Some (fst (prun sc os blank_desk), w) /\ separate w zone /\
    at_both (w_msgs w) (d_msgs (snd (prun sc os blank_desk))) (fun i x y =>
      exists t, owns true true false none (heap (w_mem w)) (zone i) t (HPtr (snd x)) /\ SizeVT sc (fst x) t = SizeVT sc (fst y) (snd y) /\
      ((exists bs, MarshalVT sc strict (fst x) t = Ok (Some bs) /\ MarshalVT sc strict (fst y) (snd y) = Ok (Some bs)) \/
       (exists e e', MarshalVT sc strict (fst x) t = Err e tt /\ MarshalVT sc strict (fst y) (snd y) = Err e' tt))).
Proof.
  intros sc grow uunm uext uclone ps os strict (W & PL & UD & UC & UN & UU & UE & UCL & UCM & UK) UO UT N K.
  destruct (run_follows sc W UD UC UN PL grow uunm uext uclone UU UE UCL UCM UK os _ _ _ (inv_start sc ps) K) as (w & pc & E & I). exists w. eexists. split; [exact E|]. split; [eapply zones; exact I|].
  intros i. pose proof (f2_nth _ _ _ (i_msgs _ _ _ _ I) i) as X. change (Desk [] []) with blank_desk in *. destruct (nth_error (w_msgs w) i) as [[m a]|] eqn:Ei, (nth_error (d_msgs _) i) as [[m' y]|]; auto.
  destruct X as (Em & F & T & t & [R Nn] & O). cbn [fst snd] in *. subst m'. exists t. split.
  - eapply own_mono; [|exact O]. unfold mine. intros b Hb. eauto.
  - destruct T as [T _]. eapply (rel_marshal sc text (keeps sc)); eauto; [intros z; apply text_deref|now apply no_keeps|eapply rs_wt; eauto].
Qed.
Print Assumptions C55_same_bytes_partial.

(** * Examples *)
(** Schema, both messages pooled.  Node: bytes b = 1; repeated Leaf r = 2; Leaf l = 3;
    int32 n = 4; repeated string s = 5.  Leaf: int32 i = 1; repeated int32 r = 2. *)
Definition hist_sc : schema := mkS
  [ mkM [ mkF 1 0 (TField LImplicit KBytes); mkF 2 1 (TField (LRepeated false) (KMessage 1)); mkF 3 2 (TField LOptional (KMessage 1));
          mkF 4 3 (TField LImplicit KInt32); mkF 5 4 (TField (LRepeated false) KString) ] 5 true [] true false;
    mkM [ mkF 1 0 (TField LImplicit KInt32); mkF 2 1 (TField (LRepeated true) KInt32) ] 2 true [] true false ] sim_up.
(** No message of the schema lacks vtproto helpers: it is not called. *)
Definition hist_uclone (m : nat) (v : hval) (h : list obj) : option (hval * list obj) := None.
Lemma hist_ok : pools_ok hist_sc sim_uunm sim_uext hist_uclone.
Proof.
  assert (forall m, md_foreign (md_of hist_sc m) = false /\ md_ext (md_of hist_sc m) = []) as N by (intros [|[|[|m]]]; split; reflexivity).
  split; [reflexivity|]. split; [intros m _; apply N|]. split; [split; [intros m bs v F; destruct (N m); congruence|discriminate]|]. split; [discriminate|]. split; [discriminate|].
  split; [intros P V m a bs h t F; destruct (N m); congruence|]. split; [intros P V m a bs h t F; destruct (N m); congruence|].
  split; [split; [reflexivity| | | |]; intros m x F; destruct (N m); congruence|]. split; [split; intros m a; intros; destruct (N m); congruence|]. intros P m; intros; destruct (N m); congruence.
Qed.
Definition hist_in : list Z := [10; 2; 7; 8; 18; 6; 8; 9; 18; 2; 1; 2; 18; 2; 8; 5; 26; 3; 18; 1; 3; 32; 6; 42; 1; 97].
Definition hist_in2 : list Z := [18; 2; 8; 1; 18; 2; 8; 2; 18; 2; 8; 3; 26; 2; 8; 4; 10; 1; 5; 42; 1; 98; 50; 1; 1; 15].
(** Decode, edit, return; take the object back; decode another input, which fails at its
    last byte after three leaves (two of them objects from the list's spare capacity); take
    a leaf (from the pool); overwrite the buffer; reset; decode part of the buffer; clone the message and edit the
    clone. *)
Definition hist_ops : list op :=
  [ OBuffer hist_in; OGet 0; OUnmarshal 0 0 0 26; OSet 0 4 (VInt 77); OSet 0 5 (VStr [98]); OReturn 0; OGet 0; OBuffer hist_in2; OUnmarshal 0 1 0 26;
    OGet 1; OUnmarshal 1 1 14 2; OWrite 1 hist_in; ONew 0; OUnmarshal 2 1 0 26; OReset 0; OUnmarshal 0 0 4 8; OReturn 2; OLose 0; OGet 1; OForget 1;
    OClone 0; OSet 2 4 (VInt 9) ].
Definition hist_picks : list nat := [0; 0; 0; 0; 0; 0; 0; 0; 0; 0]%nat.
Definition hist_end : option (list (option err) * world) := hrun hist_sc sim_grow sim_uunm sim_uext hist_uclone hist_ops (boot hist_picks).
Example C55_nonvacuous :
  pools_ok hist_sc sim_uunm sim_uext hist_uclone /\ up_enc_ok hist_sc /\ up_trim hist_sc /\ no_optional_bytes hist_sc /\ Forall (op_ok hist_sc) hist_ops.
Proof.
  assert (forall m, md_foreign (md_of hist_sc m) = false) as Nf by (intros [|[|[|m]]]; reflexivity).
  split; [exact hist_ok|]. split; [|split; [|split]].
  - split; intros; congruence.
  - intros m a b F. congruence.
  - intros [|[|[|m]]] f l P Hf T; try discriminate P; repeat (destruct Hf as [<-|Hf]; [try discriminate T|]); try destruct Hf. injection T as <-. split; discriminate.
  - repeat constructor.
Qed.
(** What the program does, by computation: the second decoding fails; the first message is
    still the object of the first FromVTPool (address 1), holds the list and the leaf of
    before (addresses 12 and 3), the leaf comes from the pool (address 21), and so does
    the leaf of the clone (address 7). *)
Example C55_example : exists w,
  hist_end = Some ([None; None; None; None; None; None; None; None; Some EWireType; None; None; None; None; None; None; None; None; None; None; None; None; None], w) /\
  w_msgs w = [(0, 1); (1, 21); (0, 24)]%nat /\ nth_error (heap (w_mem w)) 1 = Some (OMsg [HSlice 2 0 0 4; HSlice 12 0 1 6; HNil; HInt 0; HSlice 9 0 0 2] HNil) /\
  nth_error (heap (w_mem w)) 3 = Some (OMsg [HInt 9; HSlice 5 0 2 2] HNil) /\ nth_error (heap (w_mem w)) 7 = Some (OMsg [HInt 9; HSlice 27 0 2 2] HNil) /\
  d_msgs (snd (prun hist_sc hist_ops blank_desk)) =
    [(0%nat, VMsg [VNil; VList [VMsg [VInt 9; VList [VInt 1; VInt 2]] [] []]; VNil; VInt 0; VNil] [] []); (1%nat, VMsg [VInt 0; VNil] [] []);
     (0%nat, VMsg [VNil; VList [VMsg [VInt 9; VList [VInt 1; VInt 2]] [] []]; VNil; VInt 9; VNil] [] [])].
Proof. eexists. split; [vm_compute; reflexivity|]. repeat split; vm_compute; reflexivity. Qed.

(** * Programs that go on using what they returned *)
(** In the model a program has no way to use a message it returned.  If it does all the
    same, the message changes under its feet: here the program keeps the message it returned
    (the list of messages held is that of before), takes a message from the pool and decodes
    into it. *)
Theorem C55_use_after_return_refuted : exists sc grow uunm uext uclone ps os w w' os' w'' es es'',
  pools_ok sc uunm uext uclone /\ no_optional_bytes sc /\ Forall (op_ok sc) (os ++ OReturn 0 :: os') /\
  hrun sc grow uunm uext uclone os (boot ps) = Some (es, w) /\ hstep sc grow uunm uext uclone (OReturn 0) w = Some (None, w') /\
  hrun sc grow uunm uext uclone os' (World (w_mem w') (w_msgs w) (w_bufs w)) = Some (es'', w'') /\
  w_msgs w'' = [(1, 1); (1, 1)]%nat /\ nth_error (heap (w_mem w)) 1 = Some (OMsg [HInt 4; HNil] HNil) /\ nth_error (heap (w_mem w'')) 1 = Some (OMsg [HInt 5; HNil] HNil).
Proof.
  exists hist_sc, sim_grow, sim_uunm, sim_uext, hist_uclone, [0; 0]%nat, [OBuffer [8; 4; 8; 5]; OGet 1; OUnmarshal 0 0 0 2]. eexists. eexists. exists [OGet 1; OUnmarshal 1 0 2 2]. do 3 eexists.
  split; [exact hist_ok|]. split; [apply C55_nonvacuous|]. split; [repeat constructor|]. split; [vm_compute; reflexivity|]. split; [vm_compute; reflexivity|].
  split; [vm_compute; reflexivity|]. repeat split; vm_compute; reflexivity.
Qed.
Print Assumptions C55_use_after_return_refuted.
(** A message returned twice is handed out twice. *)
Theorem C55_double_return_refuted : exists sc m s1 s2 s3 s4 a,
  wf_schema sc = true /\ acc (Alloc sc m) (mkMem [] [] [0; 0; 0]%nat) = Done a s1 /\
  hReturnToVTPool sc (levels s1) m (HPtr a) s1 = Done tt s2 /\ hReturnToVTPool sc (levels s2) m (HPtr a) s2 = Done tt s3 /\
  acc (Alloc sc m) s3 = Done a s4 /\ exists s5, acc (Alloc sc m) s4 = Done a s5.
Proof.
  exists hist_sc, 1%nat. do 4 eexists. exists 0%nat. split; [reflexivity|]. split; [vm_compute; reflexivity|]. split; [vm_compute; reflexivity|].
  split; [vm_compute; reflexivity|]. split; [vm_compute; reflexivity|]. eexists. vm_compute. reflexivity.
Qed.
Print Assumptions C55_double_return_refuted.
