(** C68, C69: the Go compiler accepts the printed SizeVT and marshal methods. *)
From Coq Require Import ZArith List Bool String Arith Lia.
From Verif Require Import Base Schema Value Helpers Typing Marshal GoSyntax GoMarshal GenSize GenMarshal GoTypes GenTypes GenTypesFacts GenTypesMarshal Ex.
Import ListNotations.
Open Scope string_scope.
Open Scope Z_scope.
Open Scope list_scope.

(** The messages whose methods are printed.  Without the option wrap: those of the packages of
    the run.  With it: well-known types that refer to well-known types and foreign ones; no code
    for unknown fields. *)
Definition printed (sc : schema) (dp : nat -> dispatch) (wrap : bool) (m : nat) : Prop :=
  (m < List.length (sc_msgs sc))%nat
  /\ if wrap then dp m = DKnown /\ (forall m', dp m' <> DLocal) /\ md_keep (md_of sc m) = false
     else dp m = DLocal.

Lemma printed_w sc dp wrap m : printed sc dp wrap m -> if wrap then forall m', dp m' <> DLocal else dp m = DLocal.
Proof. intros [_ H]. destruct wrap; [apply H|exact H]. Qed.
Lemma printed_n sc dp wrap m : printed sc dp wrap m -> wrap = true -> dp m = DKnown.
Proof. intros [_ H] ->. apply H. Qed.
Lemma printed_k sc dp wrap m : printed sc dp wrap m -> wrap = true -> md_keep (md_of sc m) = false.
Proof. intros [_ H] ->. apply H. Qed.

(** The receiver of a method: a message, the wrapper of a oneof field. *)
Definition receiver (wrap : bool) (m : nat) : gtyp := YPtr (if wrap then YOwn m else YMsg m).
Definition receiver_in (wrap : bool) (m : nat) (num : Z) : gtyp := YPtr (if wrap then YOwnWrap m num else YWrap m num).

(** func (m *T) SizeVT() (n int), of messages and of the wrappers of their oneofs. *)
Theorem C68_size : forall sc dp wrap declared m,
  wf_schema sc = true -> printed sc dp wrap m -> declared "SizeVT" = true ->
  compiles sc dp wrap declared [("m", receiver wrap m); ("n", YInt)] [YInt] (gen_SizeVT dp m (md_of sc m)) = true
  /\ forall f, In f (md_fields (md_of sc m)) -> is_oneof f = true ->
       compiles sc dp wrap declared [("m", receiver_in wrap m (f_num f)); ("n", YInt)] [YInt] (gen_wrapper_SizeVT dp f) = true.
Proof.
  intros sc dp wrap declared m W P D. pose proof (printed_w _ _ _ _ P) as Hw. split.
  - apply size_message; auto; [apply P|exact (printed_k _ _ _ _ P)].
  - intros f I O. apply (size_wrapper sc dp wrap declared W m); auto. apply P.
Qed.
Print Assumptions C68_size.

(** func (m *T) MarshalVT() (dAtA []byte, err error), MarshalToVT(dAtA []byte) (int, error) and
    MarshalToSizedBufferVT(dAtA []byte) (int, error), with [strict] the Strict ones; the last two
    also for the wrappers, whatever names have been used before ([c]). *)
Theorem C68_marshal : forall sc dp wrap declared strict m,
  wf_schema sc = true -> printed sc dp wrap m -> declared "SizeVT" = true -> declared (meth_sized strict) = true ->
  mcompiles sc dp wrap declared [("err", YErr); ("dAtA", YBytes); ("m", receiver wrap m)] [YBytes; YErr] (g_marshal strict) = true
  /\ mcompiles sc dp wrap declared [("dAtA", YBytes); ("m", receiver wrap m)] [YInt; YErr] (g_to strict) = true
  /\ mcompiles sc dp wrap declared [("dAtA", YBytes); ("m", receiver wrap m)] [YInt; YErr] (fst (g_sized dp strict m (md_of sc m))) = true
  /\ forall f c, In f (md_fields (md_of sc m)) -> is_oneof f = true ->
       mcompiles sc dp wrap declared [("dAtA", YBytes); ("m", receiver_in wrap m (f_num f))] [YInt; YErr] (g_to strict) = true
       /\ mcompiles sc dp wrap declared [("dAtA", YBytes); ("m", receiver_in wrap m (f_num f))] [YInt; YErr] (fst (g_wrapper dp strict c f)) = true.
Proof.
  intros sc dp wrap declared strict m W P D DM. pose proof (printed_w _ _ _ _ P) as Hw. pose proof (printed_n _ _ _ _ P) as Hn.
  assert (Hm : (m < List.length (sc_msgs sc))%nat) by apply P. repeat split.
  - apply marshal_vt; auto. exact (recv_methods dp wrap declared m Hw Hn).
  - apply marshal_to; auto. exact (recv_methods dp wrap declared m Hw Hn).
  - apply marshal_message; auto. exact (printed_k _ _ _ _ P).
  - apply marshal_to; auto. exact (recv_in_methods dp wrap declared m Hw Hn (f_num f)).
  - apply (marshal_wrapper sc dp wrap declared strict W m); auto.
Qed.
Print Assumptions C68_marshal.

(** The rules are not empty: an unused variable, a variable declared twice, a comparison of a list
    with a number, a method that is not declared, a function without return are rejected. *)
Example C68_rejects :
  let ck := compiles ex_sc (fun _ => DLocal) false (fun h => String.eqb h "SizeVT") [("m", receiver false 0); ("n", YInt)] [YInt] in
  ck (block [SReturn (EInt 0)]) = true
  /\ ck (block [SVar "l"; SReturn (EInt 0)]) = false
  /\ ck (block [SVar "l"; SAddTo "l" (EInt 1); SReturn (EInt 0)]) = false
  /\ ck (block [SVar "l"; SVar "l"; SBlank "l"; SReturn (EInt 0)]) = false
  /\ ck (block [SDef "n" (EInt 1); SReturn (EInt 0)]) = false
  /\ ck (block [SReturn (EMeth (EVar "m") "SizeVT")]) = true
  /\ ck (block [SReturn (EMeth (EVar "m") "Size")]) = false
  /\ ck (block [SReturn (ENe (EVar "n") (EInt 0))]) = false
  /\ ck (block [SAddTo "n" (EInt 1)]) = false.
Proof. vm_compute. repeat split; reflexivity. Qed.

Definition ex_dp (m : nat) : dispatch := if Nat.eqb m 2 then DOther else DLocal.
Definition ex_declared (h : string) : bool := String.eqb h "SizeVT" || String.eqb h "MarshalToSizedBufferVT".
(** google.protobuf.Value and ListValue with the option wrap. *)
Definition kn_sc : schema := mkS
  [ mkM [mkF 1 0 (TField LOneof KEnum); mkF 2 0 (TField LOneof KDouble); mkF 6 0 (TField LOneof (KMessage 1))] 1 false [] false false;
    mkM [mkF 1 0 (TField (LRepeated false) (KMessage 0))] 1 false [] false false ] no_up.

Example C68_nonvacuous :
  wf_schema ex_sc = true /\ printed ex_sc ex_dp false 0 /\ List.length (md_fields (md_of ex_sc 0)) = 11%nat
  /\ wf_schema kn_sc = true /\ printed kn_sc (fun _ => DKnown) true 0
  /\ ex_declared "SizeVT" = true /\ ex_declared (meth_sized false) = true.
Proof.
  split; [reflexivity|]. split; [split; [cbn; lia|reflexivity]|]. split; [reflexivity|]. split; [reflexivity|]. split; [|split; reflexivity].
  split; [cbn; lia|]. cbn. split; [reflexivity|]. split; [discriminate|reflexivity].
Qed.

(** MarshalVT is printed by the feature marshal, SizeVT by the feature size: without the second the
    first does not compile, for any message. *)
Theorem C69_needs_size : forall sc dp wrap declared strict m,
  printed sc dp wrap m -> declared "SizeVT" = false ->
  mcompiles sc dp wrap declared [("err", YErr); ("dAtA", YBytes); ("m", receiver wrap m)] [YBytes; YErr] (g_marshal strict) = false.
Proof.
  intros sc dp wrap declared strict m [_ P] D. unfold mcompiles, g_marshal, receiver. destruct wrap; cbn -[meth_sized]; unfold has_method, guard.
  - rewrite D. reflexivity.
  - rewrite D, andb_false_r. reflexivity.
Qed.
Print Assumptions C69_needs_size.

(** A list of groups. *)
Definition gr_sc : schema := mkS
  [ mkM [mkF 1 0 (TField (LRepeated false) (KGroup 1))] 1 true [] false false; mkM [] 0 true [] false false ] no_up.
(** A message that refers to another message of the run. *)
Definition two_sc : schema := mkS
  [ mkM [mkF 1 0 (TField LOptional (KMessage 1))] 1 false [] false false; mkM [] 0 false [] false false ] no_up.

(** The literal claim, for every schema and all options, is false: SizeVT of a message with a list
    of groups calls a method of the list; with the option wrap it calls a method of a type that has
    none. *)
Theorem C69_refuted :
  (exists sc dp declared m, (forall m', dp m' = DLocal) /\ (forall h, declared h = true)
     /\ compiles sc dp false declared [("m", receiver false m); ("n", YInt)] [YInt] (gen_SizeVT dp m (md_of sc m)) = false)
  /\ (exists sc dp declared m, wf_schema sc = true /\ (forall m', dp m' = DLocal) /\ (forall h, declared h = true)
     /\ (forall m', (m' < List.length (sc_msgs sc))%nat -> md_keep (md_of sc m') = false)
     /\ compiles sc dp true declared [("m", receiver true m); ("n", YInt)] [YInt] (gen_SizeVT dp m (md_of sc m)) = false).
Proof.
  split.
  - exists gr_sc, (fun _ => DLocal), (fun _ => true), 0%nat. repeat split.
  - exists two_sc, (fun _ => DLocal), (fun _ => true), 0%nat. repeat split.
    intros [|[|m']] H; [reflexivity|reflexivity|cbn in H; lia].
Qed.
Print Assumptions C69_refuted.
