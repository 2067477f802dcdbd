(** C77: the printed EqualVT and EqualMessageVT obey the static rules of Go (GoTypesEqual.v;
    /repo/features/equal/equal.go prints them). *)
From Coq Require Import ZArith List Bool String Arith Lia.
From Verif Require Import Base Schema Value Typing GoSyntax GenSize GoTypes GoEqual GenEqual GoTypesEqual GenTypesEqual Ex PropsCompile PropsCompileUnmarshal PropsCompilePool.
Import ListNotations.
Open Scope string_scope.
Open Scope Z_scope.
Open Scope list_scope.

(** The parameter of the method of a oneof's wrapper: any, or the interface of the oneof. *)
Definition that_iface (wrap : bool) (m s : nat) : qtyp := if wrap then TAny else T (YOne m s).

(** func (this *T) EqualVT(that *T) bool, func (this *T_F) EqualVT(thatIface isT_O) bool and, without
    the option wrap, func (this *T) EqualMessageVT(thatMsg proto.Message) bool, for every message of
    every well-formed schema and every choice of dispatch. *)
Theorem C77_equal : forall sc dp wrap m, wf_schema sc = true -> printed sc dp wrap m ->
  qcompiles sc dp wrap m [("that", T (receiver wrap m)); ("this", T (receiver wrap m))] (gen_equal dp m (md_of sc m)) = true
  /\ (wrap = false -> qcompiles sc dp wrap m [("thatMsg", TProto); ("this", T (receiver wrap m))] gen_equal_message = true)
  /\ (forall f, In f (md_fields (md_of sc m)) -> is_oneof f = true ->
      qcompiles sc dp wrap m [("thatIface", that_iface wrap m (f_slot f)); ("this", T (receiver_in wrap m (f_num f)))] (gen_wrapper_eq dp wrap f) = true).
Proof.
  intros sc dp wrap m W P. pose proof (printed_w _ _ _ _ P) as Hw. pose proof (printed_k _ _ _ _ P) as Hk. pose proof (printed_n _ _ _ _ P) as Hn.
  assert (Hm : (m < List.length (sc_msgs sc))%nat) by apply P. split; [|split].
  - apply (message_ok sc dp wrap W m Hm Hw (receiver wrap m)); [unfold receiver; destruct wrap; reflexivity|reflexivity|auto].
  - intros E. pose proof (equal_message_ok sc dp wrap m Hw E) as X. unfold receiver. rewrite E in *. exact X.
  - intros f I O. pose proof (wrapper_ok sc dp wrap W m Hm Hw f I O Hn) as X.
    replace (GenEqual.is_known dp m) with wrap in X; [exact X|]. unfold GenEqual.is_known. destruct wrap; [rewrite (Hn eq_refl)|rewrite Hw]; reflexivity.
Qed.
Print Assumptions C77_equal.

(** All labels and kinds; a well-known type with a oneof. *)
Example C77_nonvacuous :
  wf_schema un_sc = true /\ printed un_sc ex_dp false 0 /\ List.length (md_fields (md_of un_sc 0)) = 95%nat
  /\ wf_schema kn_sc = true /\ printed kn_sc (fun _ => DKnown) true 0 /\ existsb is_oneof (md_fields (md_of kn_sc 0)) = true.
Proof.
  split; [vm_compute; reflexivity|]. split; [split; [cbn; lia|reflexivity]|]. split; [reflexivity|]. split; [reflexivity|]. split; [|reflexivity].
  split; [cbn; lia|]. cbn. split; [reflexivity|]. split; [discriminate|reflexivity].
Qed.

(** The rules are not empty: lines that change one thing of an accepted body. *)
Example C77_rejects :
  let R := T (receiver false 0) in
  let ck s := qcompiles pool_sc (fun a => match a with 0%nat => DLocal | _ => DOther end) false 0 [("that", R); ("this", R)] (qblock [s; QRet XTrue]) in
  let l s := XSel (XVar "this") (MSlot s) in
  let r s := XSel (XVar "that") (MSlot s) in
  let not e := fail_if (XNot e) in
  qcompiles pool_sc (fun _ => DLocal) false 0 [("that", R); ("this", R)] (fail_if XTrue) = false
  /\ ck (fail_if (XNe (XLen (l 0%nat)) (XLen (r 0%nat)))) = true
  /\ ck (fail_if (XNe (l 0%nat) (r 0%nat))) = false
  /\ ck (fail_if (XNe (XLen (l 4%nat)) (XLen (r 4%nat)))) = false
  /\ ck (fail_if (XNe (XString (l 2%nat)) (XString (r 2%nat)))) = true
  /\ ck (fail_if (XNe (l 2%nat) (r 2%nat))) = false
  /\ ck (fail_if (XNe (XString (l 2%nat)) (r 2%nat))) = false
  /\ ck (QRange (l 6%nat) (qblock [QElem (r 6%nat); fail_if (XNe (XVar "vx") (XVar "vy"))])) = true
  /\ ck (QRange (l 6%nat) (qblock [fail_if (XNe (XVar "vx") (XVar "vx"))])) = false
  /\ ck (QRange (l 6%nat) (qblock [QElem (r 6%nat); fail_if (XNe (XVar "vx") (XVar "vx"))])) = false
  /\ ck (QRange (l 6%nat) (qblock [QElem (r 1%nat); fail_if (XNe (XVar "vx") (XVar "vy"))])) = false
  /\ ck (QRange (l 6%nat) (qblock [QElem (r 6%nat); QElem (r 6%nat); fail_if (XNe (XVar "vx") (XVar "vy"))])) = false
  /\ ck (QRange (l 5%nat) (qblock [QEntry (r 5%nat); fail_if (XNot (XVar "ok")); not (XProto (XVar "vx") (XVar "vy"))])) = true
  /\ ck (QRange (l 5%nat) (qblock [QEntry (r 5%nat); not (XProto (XVar "vx") (XVar "vy"))])) = false
  /\ ck (QRange (l 5%nat) (qblock [QElem (r 5%nat); not (XProto (XVar "vx") (XVar "vy"))])) = false
  /\ ck (QRange (l 7%nat) (qblock [QElem (r 7%nat); not (XEqual (XVar "vx") (XVar "vy"))])) = true
  /\ ck (QRange (l 0%nat) (qblock [QElem (r 0%nat); not (XEqual (XVar "vx") (XVar "vy"))])) = false
  /\ ck (QHas (l 4%nat) 6 (not (XEqual (XVar "equal") (r 4%nat))) (not (XProto (l 4%nat) (r 4%nat)))) = true
  /\ ck (QHas (l 4%nat) 6 (not (XEqual (l 4%nat) (r 4%nat))) (not (XProto (l 4%nat) (r 4%nat)))) = false
  /\ ck (QHas (l 4%nat) 6 (not (XEqual (XVar "equal") (r 4%nat))) QSkip) = false
  /\ ck (QHas (l 4%nat) 9 (not (XEqual (XVar "equal") (r 4%nat))) (not (XProto (l 4%nat) (r 4%nat)))) = false
  /\ ck (QWith (l 4%nat) (r 4%nat) (XNe (XVar "p") (XVar "q")) (QNew "p" 6 1)) = true
  /\ ck (QWith (l 4%nat) (r 4%nat) (XNe (XVar "p") (XVar "q")) (QNew "p" 9 0)) = false
  /\ ck (QWith (l 4%nat) (r 4%nat) (notnil (XVar "p")) QSkip) = false
  /\ ck (not (XEqual (XIface 3 (l 3%nat)) (r 3%nat))) = true
  /\ ck (not (XEqual (l 3%nat) (r 3%nat))) = false
  /\ ck (not (XEqual (XIface 3 (l 3%nat)) (r 4%nat))) = false.
Proof. vm_compute. repeat split; reflexivity. Qed.
