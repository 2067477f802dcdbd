(** C78: the printed CloneVT and CloneMessageVT obey the static rules of Go (GoTypesClone.v;
    /repo/features/clone/clone.go prints them). *)
From Coq Require Import ZArith List Bool String Arith Lia.
From Verif Require Import Base Schema Value Typing GoSyntax GenSize GoTypes GoTypesEqual GoClone GenClone GoTypesClone GenTypesClone Ex PropsCompile PropsCompileUnmarshal PropsCompilePool.
Import ListNotations.
Open Scope string_scope.
Open Scope Z_scope.
Open Scope list_scope.

(** The result of the method of a oneof's wrapper: its own type, or the interface of the oneof. *)
Definition clone_in (wrap : bool) (m : nat) (f : fdesc) : qtyp := if wrap then T (receiver_in wrap m (f_num f)) else T (YOne m (f_slot f)).

(** func (m *T) CloneVT() *T, func (m *T_F) CloneVT() isT_O and, without the option wrap,
    func (m *T) CloneMessageVT() proto.Message, for every message of every well-formed schema and every
    choice of dispatch.  [pools]: the messages with a function FromVTPool. *)
Theorem C78_clone : forall sc dp wrap pools m, wf_schema sc = true -> printed sc dp wrap m ->
  (md_pool (md_of sc m) = true -> pools m = true /\ wrap = false) ->
  ccompiles sc dp wrap pools m [("m", T (receiver wrap m))] (T (receiver wrap m)) (gen_clone dp m (md_of sc m)) = true
  /\ (wrap = false -> ccompiles sc dp wrap pools m [("m", T (receiver wrap m))] TProto gen_clone_message = true)
  /\ (forall f, In f (md_fields (md_of sc m)) -> is_oneof f = true ->
      ccompiles sc dp wrap pools m [("m", T (receiver_in wrap m (f_num f)))] (clone_in wrap m f) (gen_clone_wrapper dp wrap m f) = true).
Proof.
  intros sc dp wrap pools m W P Hp. pose proof (printed_w _ _ _ _ P) as Hw. pose proof (printed_k _ _ _ _ P) as Hk. pose proof (printed_n _ _ _ _ P) as Hn.
  assert (Hm : (m < List.length (sc_msgs sc))%nat) by apply P. split; [|split].
  - apply (clone_ok sc dp wrap pools W m Hm Hw (T (receiver wrap m))); auto.
  - intros E. pose proof (clone_message_ok sc dp wrap pools m Hw TProto eq_refl E) as X. unfold receiver. rewrite E in *. exact X.
  - intros f I O. pose proof (clone_wrapper_ok sc dp wrap pools W m Hm Hw (clone_in wrap m f) f I O Hn) as X.
    replace (GenEqual.is_known dp m) with wrap in X; [apply X; unfold clone_in, receiver_in; destruct wrap; reflexivity|].
    unfold GenEqual.is_known. destruct wrap; [rewrite (Hn eq_refl)|rewrite Hw]; reflexivity.
Qed.
Print Assumptions C78_clone.

(** The condition on pools is needed: CloneVT of a message the generator takes to have a pool does not
    compile where FromVTPool is not declared. *)
Theorem C78_pools_needed : forall sc dp wrap pools m, md_pool (md_of sc m) = true -> pools m = false ->
  ccompiles sc dp wrap pools m [("m", T (receiver wrap m))] (T (receiver wrap m)) (gen_clone dp m (md_of sc m)) = false.
Proof.
  intros sc dp wrap pools m P N. unfold ccompiles, gen_clone. rewrite P.
  assert (F : forall R G a b, ccheck sc dp wrap pools m R G (CSeq a (CSeq (CDef "r" (CPool m)) b)) = None).
  { intros R G a b. cbn [ccheck cty]. rewrite N. destruct (ccheck sc dp wrap pools m R G a) as [[G1 u]|]; reflexivity. }
  cbn [app cblock]. rewrite F. reflexivity.
Qed.
Print Assumptions C78_pools_needed.

(** All labels and kinds; a well-known type with a oneof; messages with pools. *)
Example C78_nonvacuous :
  wf_schema un_sc = true /\ printed un_sc ex_dp false 0 /\ List.length (md_fields (md_of un_sc 0)) = 95%nat /\ md_pool (md_of un_sc 0) = true
  /\ wf_schema kn_sc = true /\ printed kn_sc (fun _ => DKnown) true 0 /\ existsb is_oneof (md_fields (md_of kn_sc 0)) = true /\ md_pool (md_of kn_sc 0) = false
  /\ wf_schema pool_sc = true /\ printed pool_sc (fun _ => DLocal) false 0 /\ md_pool (md_of pool_sc 0) = true.
Proof.
  split; [vm_compute; reflexivity|]. split; [split; [cbn; lia|reflexivity]|]. split; [reflexivity|]. split; [vm_compute; reflexivity|]. split; [reflexivity|]. split.
  - split; [cbn; lia|]. cbn. split; [reflexivity|]. split; [discriminate|reflexivity].
  - split; [reflexivity|]. split; [reflexivity|]. split; [reflexivity|]. split; [split; [cbn; lia|reflexivity]|reflexivity].
Qed.

(** The rules are not empty: lines that change one thing of an accepted body. *)
Example C78_rejects :
  let R := T (receiver false 0) in
  let dp a := match a with 0%nat => DLocal | _ => DOther end in
  let cc := ccompiles pool_sc dp false (fun a => Nat.eqb a 0) 0 [("m", R)] R in
  let ck s := cc (cblock [CDef "r" (CPool 0); s; CRet (CVar "r")]) in
  let l s := LSel "r" (MSlot s) in
  let r s := CSel (CVar "m") (MSlot s) in
  let rhs := CVar "rhs" in
  let tmp := CVar "tmpContainer" in
  let list fn s n := CIfRhs (r s) (cblock [CDef "tmpContainer" (CMake fn (TField (LRepeated false) n) rhs); CRange rhs (CSet (LAt "tmpContainer") (CVar "v")); CSet (l s) tmp]) in
  cc (CDef "r" (CNew 0)) = false
  /\ cc (cblock [CDef "r" (CNew 0); CRet (CVar "m")]) = false
  /\ cc (cblock [CDef "r" (CNew 0); CDef "r" (CNew 0); CRet (CVar "r")]) = false
  /\ cc (cblock [CIfNil (CVar "m") (CRet (CVar "r")); CDef "r" (CNew 0); CRet (CVar "r")]) = false
  /\ ck CSkip = true
  /\ ck (CSet (l 4%nat) (r 4%nat)) = true
  /\ ck (CSet (l 4%nat) (r 7%nat)) = false
  /\ ck (CSet (l 4%nat) (CClone (r 4%nat))) = false
  /\ ck (CHas (r 4%nat) 6 (CSet (l 4%nat) (CClone (CVar "vtpb"))) (CSet (l 4%nat) (CProto 6 (r 4%nat)))) = true
  /\ ck (CHas (r 4%nat) 6 (CSet (l 4%nat) (CClone (r 4%nat))) (CSet (l 4%nat) (CProto 6 (r 4%nat)))) = false
  /\ ck (CHas (r 4%nat) 9 (CSet (l 4%nat) (CClone (CVar "vtpb"))) (CSet (l 4%nat) (CProto 6 (r 4%nat)))) = false
  /\ ck (CHas (r 4%nat) 6 (CSet (l 4%nat) (CClone (CVar "vtpb"))) (CSet (l 4%nat) (CProto 9 (r 4%nat)))) = false
  /\ ck (CHas (r 4%nat) 6 CSkip (CSet (l 4%nat) (CProto 6 (r 4%nat)))) = false
  /\ ck (list 2 1%nat KString) = true
  /\ ck (list 2 1%nat KBytes) = false
  /\ ck (list 1 0%nat (KMessage 1)) = true
  /\ ck (list 9 0%nat (KMessage 0)) = false
  /\ ck (CIfRhs (r 1%nat) (cblock [CDef "tmpContainer" (CMake 2 (TField (LRepeated false) KString) rhs); CCopy (LVar "tmpContainer") rhs; CSet (l 1%nat) rhs])) = true
  /\ ck (CIfRhs (r 1%nat) (cblock [CDef "tmpContainer" (CMake 2 (TField (LRepeated false) KString) rhs); CSet (l 1%nat) rhs])) = false
  /\ ck (CIfRhs (r 1%nat) (CRange rhs (CSet (l 1%nat) rhs))) = false
  /\ ck (CIfRhs (r 2%nat) (cblock [CDef "tmpBytes" (CMakeBytes rhs); CCopy (LVar "tmpBytes") rhs; CSet (l 2%nat) (CVar "tmpBytes")])) = true
  /\ ck (CIfRhs (r 2%nat) (cblock [CDef "tmpBytes" (CMakeBytes rhs); CCopy (LVar "tmpBytes") rhs; CSet (l 1%nat) (CVar "tmpBytes")])) = false
  /\ ck (CIfRhs (r 2%nat) (cblock [CDef "tmpVal" (CStar rhs); CSet (l 2%nat) (CAddr "tmpVal")])) = false
  /\ ck (CSet (l 3%nat) (CClone (CIface 3 (r 3%nat)))) = true
  /\ ck (CSet (l 3%nat) (CClone (r 3%nat))) = false
  /\ ck (CSet (l 3%nat) (CIface 3 (r 3%nat))) = false
  /\ ck (CSet (LSel "r" MUnknown) (CMakeBytes (r 4%nat))) = false.
Proof. vm_compute. repeat split; reflexivity. Qed.
