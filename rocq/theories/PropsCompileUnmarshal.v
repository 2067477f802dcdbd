(** C73, C74: the printed UnmarshalVT and UnmarshalVTUnsafe obey the static rules of Go
    (GoTypesUnmarshal.v; /repo/features/unmarshal/unmarshal.go prints them). *)
From Coq Require Import ZArith List Bool String Arith Lia.
From Verif Require Import Base Schema Value Typing GoSyntax GoMarshal GenSize GenMarshal GoUnmarshal GenUnmarshal GoTypes GoTypesUnmarshal GenTypesUnBody Ex PropsCompile.
Import ListNotations.
Open Scope string_scope.
Open Scope Z_scope.
Open Scope list_scope.

(** The ranges of extensions are those protoc allows: [lo, hi) within the numbers of fields; MessageSet
    allows up to 2^31 - 1. *)
Definition ext_ranges (md : mdesc) : Prop := forall lo hi, In (lo, hi) (md_ext md) -> 0 < lo /\ lo < hi /\ hi <= 2147483647.

(** func (m *T) UnmarshalVT(dAtA []byte) error, func (m *T) UnmarshalVTUnsafe(dAtA []byte) error, for
    every message of every well-formed schema, every choice of dispatch, pooled messages and fields
    with the option unique.  [pools]: the messages with a function FromVTPool, [pool]: those the
    printed code calls it for.  With the option wrap messages with extensions are excluded. *)
Theorem C73_unmarshal : forall sc dp wrap declared pools pool unique unsafe m,
  wf_schema sc = true -> printed sc dp wrap m -> ext_ranges (md_of sc m) ->
  declared (if unsafe : bool then "UnmarshalVTUnsafe" else "UnmarshalVT") = true ->
  (forall m', pool m' = true -> pools m' = true) ->
  (wrap = true -> md_ext (md_of sc m) = []) ->
  ucompiles sc dp wrap declared pools m (meth_unmarshal unsafe) (receiver wrap m) (u_body dp pool unique unsafe (md_of sc m)) = true.
Proof.
  intros sc dp wrap declared pools pool unique unsafe m W P X D HP E. pose proof (printed_w _ _ _ _ P) as Hw. pose proof (printed_k _ _ _ _ P) as Hk.
  apply unmarshal_compiles; auto.
  - apply P.
  - unfold receiver. destruct wrap; reflexivity.
  - intros K. unfold receiver. destruct wrap; [rewrite Hk in K by reflexivity; discriminate K|auto].
  - intros K. unfold receiver. destruct wrap; [rewrite E in K by reflexivity; contradiction|reflexivity].
  - intros [lo hi] I. apply X in I. cbn [fst snd]. unfold fits. split; apply andb_true_intro; split; try apply Z.leb_le; try apply Z.ltb_lt; lia.
Qed.
Print Assumptions C73_unmarshal.

(** The rules are not empty: each line changes one thing of an accepted body. *)
Example C73_rejects :
  let ck := ucompiles ex_sc (fun _ => DLocal) false (fun h => String.eqb h "UnmarshalVT") (fun _ => false) 0 "UnmarshalVT" (receiver false 0) in
  ck (ublock [UDef "l" XAll; UIf (XGt (XVar "l") (num 0)) (URet REOF) USkip; URet RNil]) = true
  /\ ck (ublock [UDef "l" XAll; URet RNil]) = false
  /\ ck (ublock [UDef "l" XAll; UIf (XGt (XVar "l") (num 0)) (URet REOF) USkip]) = false
  /\ ck (ublock [UDef "l" XAll; UDef "l" XAll; UIf (XGt (XVar "l") (num 0)) (URet REOF) USkip; URet RNil]) = false
  /\ ck (ublock [UDef "l" XAll; UIf (XVar "l") (URet REOF) USkip; URet RNil]) = false
  /\ ck (ublock [UDef "l" XAll; UIf (XGt (XVar "l") (num 0)) UBreak USkip; URet RNil]) = false
  /\ ck (ublock [UDef "l" XAll; UIf (XGt (XVar "l") (num 0)) (URet RErr) USkip; URet RNil]) = false
  /\ ck (ublock [UVar "v" GoUnmarshal.YU64; UDef "l" XAll; UIf (XGt (XVar "v") (XVar "l")) (URet REOF) USkip; URet RNil]) = false
  /\ ck (ublock [UVar "v" GoUnmarshal.YU64; UDef "l" XAll; UIf (XGt (XConv GoUnmarshal.YInt (XVar "v")) (XVar "l")) (URet REOF) USkip; URet RNil]) = true.
Proof. vm_compute. repeat split; reflexivity. Qed.

(** Message 0 has the labels and kinds of fields, required fields and extensions; message 1 is
    pooled; message 2 is of another package. *)
Definition all_kinds : list kind :=
  [KDouble; KFloat; KInt64; KUint64; KInt32; KUint32; KSint32; KSint64; KFixed32; KFixed64; KSfixed32; KSfixed64; KBool; KString; KBytes; KEnum;
   KMessage 0; KMessage 1; KMessage 2].
Definition un_fields : list fdesc :=
  flat_map (fun il => map (fun jk => mkF (Z.of_nat (1 + fst il * 20 + fst jk)) (fst il * 20 + fst jk) (TField (snd il) (snd jk)))
                          (combine (seq 0 19) all_kinds))
           (combine (seq 0 3) [LOptional; LRequired; LRepeated false])
  ++ map (fun jk => mkF (Z.of_nat (101 + fst jk)) 80 (TField LOneof (snd jk))) (combine (seq 0 19) all_kinds)
  ++ map (fun jk => mkF (Z.of_nat (121 + fst jk)) (81 + fst jk) (TMap KString (snd jk))) (combine (seq 0 19) all_kinds).
Definition un_sc : schema := mkS
  [ mkM un_fields 100 true [(1000, 2000); (3000, 536870912)] true false;
    mkM [] 0 true [] true false; mkM [] 0 true [] false false ] no_up.

Example C73_nonvacuous :
  wf_schema un_sc = true /\ printed un_sc ex_dp false 0 /\ ext_ranges (md_of un_sc 0)
  /\ List.length (md_fields (md_of un_sc 0)) = 95%nat /\ List.length (filter is_required (md_fields (md_of un_sc 0))) = 19%nat
  /\ wf_schema kn_sc = true /\ printed kn_sc (fun _ => DKnown) true 0 /\ md_ext (md_of kn_sc 0) = [] /\ ext_ranges (md_of kn_sc 0).
Proof.
  split; [vm_compute; reflexivity|]. split; [split; [cbn; lia|reflexivity]|]. split.
  { intros lo hi [E|[E|[]]]; injection E as <- <-; lia. }
  split; [reflexivity|]. split; [vm_compute; reflexivity|]. split; [reflexivity|]. split; [|split; [reflexivity|intros lo hi []]].
  split; [cbn; lia|]. cbn. split; [reflexivity|]. split; [discriminate|reflexivity].
Qed.

(** A message of the well-known types with a range of extensions. *)
Definition we_sc : schema := mkS [ mkM [] 0 false [(100, 200)] false false ] no_up.

(** The hypotheses are needed: UnmarshalVT does not compile for a message with a list of groups; for
    a pooled message if the feature pool is not selected; for a message with extensions and the
    option wrap. *)
Theorem C74_refuted :
  (exists sc dp declared m, (forall m', dp m' = DLocal) /\ (forall h, declared h = true)
     /\ ucompiles sc dp false declared (fun _ => true) m "UnmarshalVT" (receiver false m) (u_body dp (fun _ => false) (fun _ => false) false (md_of sc m)) = false)
  /\ (exists sc dp declared m, wf_schema sc = true /\ printed sc dp false m /\ (forall h, declared h = true)
     /\ ucompiles sc dp false declared (fun _ => false) m "UnmarshalVT" (receiver false m) (u_body dp (fun _ => true) (fun _ => false) false (md_of sc m)) = false)
  /\ (exists sc dp declared m, wf_schema sc = true /\ printed sc dp true m /\ (forall h, declared h = true)
     /\ ucompiles sc dp true declared (fun _ => true) m "UnmarshalVT" (receiver true m) (u_body dp (fun _ => false) (fun _ => false) false (md_of sc m)) = false).
Proof.
  split; [|split].
  - exists gr_sc, (fun _ => DLocal), (fun _ => true), 0%nat. split; [reflexivity|]. split; [reflexivity|]. vm_compute. reflexivity.
  - exists un_sc, ex_dp, (fun _ => true), 0%nat. split; [vm_compute; reflexivity|]. split; [split; [cbn; lia|reflexivity]|]. split; [reflexivity|]. vm_compute. reflexivity.
  - exists we_sc, (fun _ => DKnown), (fun _ => true), 0%nat. split; [reflexivity|]. split.
    { split; [cbn; lia|]. cbn. split; [reflexivity|]. split; [discriminate|reflexivity]. }
    split; [reflexivity|]. vm_compute. reflexivity.
Qed.
Print Assumptions C74_refuted.
