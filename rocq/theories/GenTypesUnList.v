(** The printed cases of lists compile (GenUnmarshal.v,
    unmarshal.go:286-781). *)
From Coq Require Import ZArith List Bool String Arith Lia.
From Verif Require Import Base Schema Value Helpers Typing Marshal Unmarshal GoSyntax GoMarshal GenSize GenMarshal GenSizeFacts GoUnmarshal GenUnmarshal GoTypes GenTypes GenTypesFacts GoTypesUnmarshal GenTypesUnmarshal.
Import ListNotations.
Open Scope string_scope.
Open Scope Z_scope.
Open Scope list_scope.


Section Unmarshal.
Variable sc : schema.
Variable dp : nat -> dispatch.
Variable wrap : bool.
Variable declared : string -> bool.
Variable pools pool : nat -> bool.
Variable unique : Z -> bool.
Variable unsafe : bool.
Hypothesis W : wf_schema sc = true.
Variable m : nat.
Hypothesis Hm : (m < List.length (sc_msgs sc))%nat.
Hypothesis Hw : if wrap then forall m', dp m' <> DLocal else dp m = DLocal.
Hypothesis DM : declared (meth_unmarshal unsafe) = true.
Hypothesis HP : forall a, pool a = true -> pools a = true.

Lemma un_repeated H r mp n s lab k : struct_of r = Some m -> slot_ty sc m s = Some (field_ty (TField lab k)) -> named sc m n = Some k ->
  wf_type (List.length (sc_msgs sc)) (TField lab k) = true -> match lab with LRepeated _ => True | _ => False end ->
  ufield_ok sc dp wrap declared pools unsafe m H r (u_field dp pool unique unsafe mp (mkF n s (TField lab k))).
Proof.
  intros R S N T O. unfold ufield_ok.
  assert (NM : forall a, k = KMessage a \/ k = KGroup a -> names_msg sc m n a = true) by (intros a [-> | ->]; unfold names_msg; rewrite N; apply msg_refl).
  destruct lab as [| | |p|]; try contradiction; destruct k; cbn in T; rewrite ?andb_false_r in T; try discriminate T; clear T.
  all: try match goal with _ : context [KMessage ?a] |- _ => specialize (NM a (or_introl eq_refl)); destruct (dp a) eqn:E; [| pose proof (not_wrapped dp wrap m Hw a E) as Ew |] end.
  all: try match goal with _ : context [KGroup ?a] |- _ => specialize (NM a (or_intror eq_refl)); destruct (dp a) eqn:E; [| pose proof (not_wrapped dp wrap m Hw a E) as Ew |] end.
  all: destruct H as [h|].
  all: cbn [field_ty kind_ty] in S.
  all: unfold GU; cbn [app].
  all: uopen.
  all: repeat match goal with |- context [if ?b then _ else _] => is_var b; destruct b; cbn [andb] end.
  all: repeat match goal with |- context [if ?b then _ else _] => destruct b eqn:?; cbn [andb] end.
  all: try match goal with P : pool _ = true |- _ => apply HP in P end.
  all: try match goal with _ : dp _ = _ |- _ => rewrite E end.
  all: abstract ufield.
Qed.
End Unmarshal.
