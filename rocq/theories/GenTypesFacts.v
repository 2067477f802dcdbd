(** The code of GenSize.v and GenMarshal.v obeys the rules of GoTypes.v. *)
From Coq Require Import ZArith List Bool String Arith Lia.
From Verif Require Import Base Schema Value Helpers Typing Marshal GoSyntax GoMarshal GenSize GenMarshal GenSizeFacts GoTypes GenTypes.
Import ListNotations.
Open Scope string_scope.
Open Scope Z_scope.
Open Scope list_scope.

Ltac fit := repeat match goal with |- context [fits ?t ?z] =>
    let H := fresh in assert (H : fits t z = true) by first [reflexivity | apply fits_one | apply fits_two | apply fits_sum; lia]; rewrite H; clear H end.

Ltac comp := unfold is_bool, gives, guard, after, both, close, declare, declare2, in_block, has_int, has_buffer, has_method, is_known, is_local, var_ty, use, YBytes, bind, default_ty,
    sov, soz, key_l, fvar, xvar, jvar, total;
  cbn [ty find_var reads String.eqb Ascii.eqb Bool.eqb List.length append
  fst snd app fold_left seq forallb existsb filter Nat.eqb Nat.ltb Nat.leb Nat.sub orb andb negb
  is_nilable is_numeric is_integer assignable same common comparable sig_eqb kind_ty field_ty struct_of].
Ltac leaf S := first [
   solve [repeat first [progress comp | rewrite S | progress fit | rewrite String.eqb_refl | rewrite msg_refl | rewrite Z.eqb_refl
             | rewrite orb_true_r | match goal with |- context [if ?b then true else true] => replace (if b then true else true) with true by (destruct b; reflexivity) end
             | match goal with H : struct_of ?r = _ |- context [struct_of ?r] => rewrite H end
             | match goal with H : ?w = false |- context [negb ?w] => rewrite H end
             | match goal with H : ?x = true |- context [?x] => rewrite H end
             | match goal with H : ?d _ = ?y |- context [?d ?z] => match type of y with dispatch => rewrite H end end ]; reflexivity]].

Ltac ck S := lazymatch goal with |- check _ _ _ _ _ _ _ _ ?s = _ => lazymatch s with
  | SSkip => eapply ck_skip
  | SSeq _ _ => eapply ck_seq; [ck S|ck S]
  | SVar _ => eapply ck_var; leaf S
  | SBlank _ => eapply ck_blank; leaf S
  | SDef _ _ => eapply ck_def; [leaf S|leaf S|leaf S]
  | SSet _ _ => eapply ck_set; [leaf S|leaf S]
  | SAddTo _ _ => eapply ck_add; [leaf S|leaf S|leaf S]
  | SIf _ _ _ => eapply ck_if; [leaf S|eapply ck_blk; [ck S|leaf S]|eapply ck_blk; [ck S|leaf S]]
  | SAssert _ _ _ _ _ _ => eapply ck_assert; [leaf S|leaf S|eapply ck_blk; [ck S|leaf S]|eapply ck_blk; [ck S|leaf S]|leaf S]
  | SRange _ _ _ _ =>
      first [eapply ck_range; [leaf S|eapply ck_blk; [ck S|leaf S]|leaf S]
            |eapply ck_range_map; [leaf S|eapply ck_blk; [ck S|leaf S]|leaf S]]
  | SReturn _ => eapply ck_return; leaf S
  end end.

Section Size.
Variable sc : schema.
Variable dp : nat -> dispatch.
Variable wrap : bool.
Variable declared : string -> bool.
Hypothesis W : wf_schema sc = true.
Variable m : nat.
Hypothesis Hm : (m < List.length (sc_msgs sc))%nat.
Hypothesis Hw : if wrap then forall m', dp m' <> DLocal else dp m = DLocal.
Hypothesis D : declared "SizeVT" = true.

Definition step_ok (G : ctx) (s : stmt) : Prop := exists u, check sc dp wrap declared [YInt] None 0 G s = Some (G, u).

(** What the checks see of the kind of a map's key. *)
Inductive seen : kclass -> gtyp -> Prop :=
| seen_fix64 t : is_numeric t = true -> seen CFix64 t
| seen_fix32 t : is_numeric t = true -> seen CFix32 t
| seen_var t : is_integer t = true -> is_numeric t = true -> seen CVar t
| seen_zig t : is_integer t = true -> is_numeric t = true -> seen CZig t
| seen_bool : seen CBool YBool
| seen_str : seen CStr YStr
| seen_byt : seen CByt YBytes
| seen_msg a : seen (CMsg a) (YPtr (YMsg a))
| seen_grp a : seen (CGrp a) (YPtr (YMsg a)).
Lemma seen_kind k : seen (classify k) (kind_ty k).
Proof. destruct k; cbn; constructor; reflexivity. Qed.

Lemma not_wrapped a : dp a = DLocal -> wrap = false.
Proof. intros E. destruct wrap; [exfalso; exact (Hw a E)|reflexivity]. Qed.

Lemma size_map r num s kk vk : struct_of r = Some m -> slot_ty sc m s = Some (YMap (kind_ty kk) (kind_ty vk)) ->
  key_kind kk = true -> is_group vk = false ->
  step_ok (GS r) (gen_field dp (mkF num s (TMap kk vk))).
Proof.
  intros R S K V. unfold step_ok, GS.
  pose proof (seen_kind kk) as Ck. pose proof (seen_kind vk) as Cv.
  lazy beta iota zeta delta [gen_field gen_map gen_map_val gen_map_key f_ty f_num f_slot].
  revert Ck Cv S. generalize (kind_ty kk) (kind_ty vk) (ProtoWireType kk) (ProtoWireType vk). intros t1 t2 w1 w2 Ck Cv S.
  assert (Nk : match classify kk with CByt | CMsg _ | CGrp _ => False | _ => True end) by (destruct kk; try discriminate K; exact Logic.I).
  assert (Nv : match classify vk with CGrp _ => False | _ => True end) by (destruct vk; try discriminate V; exact Logic.I).
  destruct Ck; try contradiction; destruct Cv; try contradiction.
  all: try (destruct (dp a) eqn:E; [| pose proof (not_wrapped a E) as Ew |]).
  all: lazy beta iota zeta delta [gen_messageSize block app fst snd sum_terms fold_left].
  all: try rewrite E; lazy beta iota zeta.
  all: eexists; ck S.
Qed.

Lemma size_plain r num s lab k : struct_of r = Some m -> slot_ty sc m s = Some (field_ty (TField lab k)) ->
  wf_type (List.length (sc_msgs sc)) (TField lab k) = true -> lab <> LOneof ->
  step_ok (GS r) (gen_field dp (mkF num s (TField lab k))).
Proof.
  intros R S T O. unfold step_ok, GS.
  destruct lab as [| | |p|]; try contradiction; try destruct p; destruct k; cbn in T; rewrite ?andb_false_r in T; try discriminate T; clear T.
  all: try match goal with _ : context [KMessage ?a] |- _ => destruct (dp a) eqn:E; [| pose proof (not_wrapped a E) as Ew |] end.
  all: try match goal with _ : context [KGroup ?a] |- _ => destruct (dp a) eqn:E; [| pose proof (not_wrapped a E) as Ew |] end.
  all: lazy beta iota zeta delta [gen_field gen_scalar gen_messageSize has_message classify f_ty f_num f_slot block app fst snd].
  all: try rewrite E; lazy beta iota zeta.
  all: eexists; ck S.
Qed.

Lemma size_in r num s k : r = YPtr (YWrap m num) \/ r = YPtr (YOwnWrap m num) -> in_ty sc m num = Some (kind_ty k) -> is_group k = false ->
  step_ok (GS r) (gen_field dp (mkF num s (TField LOneof k))).
Proof.
  intros R S K. unfold step_ok, GS.
  destruct k; try discriminate K.
  all: try match goal with _ : context [KMessage ?a] |- _ => destruct (dp a) eqn:E; [| pose proof (not_wrapped a E) as Ew |] end.
  all: lazy beta iota zeta delta [gen_field gen_scalar gen_messageSize has_message classify f_ty f_num f_slot block app fst snd].
  all: try rewrite E; lazy beta iota zeta.
  all: destruct R as [-> | ->]; eexists; ck S.
Qed.

Lemma block_ok G l : (forall s, In s l -> step_ok G s) -> step_ok G (block l).
Proof.
  induction l as [|s l IH]; intros H; [eexists; apply ck_skip|].
  destruct (H s) as [u U]; [now left|]. destruct IH as [v V]; [intros s' I; apply H; now right|].
  eexists. cbn [block]. eapply ck_seq; eassumption.
Qed.

(** The cases of a type switch are those of one oneof. *)
Definition of_slot (s : nat) (l : list fdesc) : Prop :=
  forall f, In f l -> In f (md_fields (md_of sc m)) /\ is_oneof f = true /\ f_slot f = s.

Lemma distinct_ok l : pairwise compatible l = true -> distinct (map f_num l) = true.
Proof.
  induction l as [|f l IH]; [reflexivity|]. cbn. intros P. apply andb_prop in P. destruct P as [P Q]. rewrite (IH Q), andb_true_r.
  rewrite forallb_forall in P. apply negb_true_iff. apply not_true_is_false. intros X. apply existsb_exists in X. destruct X as [z [I E]].
  apply in_map_iff in I. destruct I as [g [<- I]]. specialize (P g I). unfold compatible in P. rewrite E in P. discriminate.
Qed.

Lemma pairwise_filter {A} (R : A -> A -> bool) p l : pairwise R l = true -> pairwise R (filter p l) = true.
Proof.
  induction l as [|x l IH]; [reflexivity|]. cbn. intros P. apply andb_prop in P. destruct P as [P Q]. destruct (p x); [|auto].
  cbn. rewrite (IH Q), andb_true_r. rewrite forallb_forall in *. intros y I. apply filter_In in I. apply P, I.
Qed.

Lemma case_nums_ok l : case_nums (gen_cases l) = map f_num l.
Proof. induction l as [|f l IH]; [reflexivity|]. cbn. rewrite IH. reflexivity. Qed.

Lemma cases_ok r s l start : is_known (dp m) = true -> of_slot s l ->
  exists u, check sc dp wrap declared [YInt] (Some ("c", m, s)) start (GS r) (gen_cases l) = Some (GS r, u) /\ (l <> [] -> In 3%nat u).
Proof.
  intros K. induction l as [|f l IH]; intros H.
  - exists []. split; [reflexivity|congruence].
  - destruct IH as [v [V _]]; [intros g I; apply H; now right|]. destruct (H f) as [I [O E]]; [now left|]. subst s.
    cbn [gen_cases]. eexists. split.
    + eapply ck_case; [apply (implements_ok sc W m Hm f I O)| |exact V].
      eapply ck_blk; [eapply ck_add; [reflexivity|reflexivity|]|reflexivity].
      unfold gives, GS. cbn. rewrite Z.eqb_refl, K, orb_true_r. cbn. rewrite D, K. destruct wrap; reflexivity.
    + intros _. apply in_or_app. left. left. reflexivity.
Qed.

Lemma slot_fields s : (exists f, In f (md_fields (md_of sc m)) /\ is_oneof f = true /\ f_slot f = s) ->
  of_slot s (filter (fun g => Nat.eqb (f_slot g) s) (md_fields (md_of sc m))).
Proof.
  intros [f [I [O E]]] g G. apply filter_In in G. destruct G as [G F]. apply Nat.eqb_eq in F. split; [exact G|]. split; [|exact F].
  destruct (compat sc W m Hm f g I G) as [<-|[C|C]]; [exact O| |]; unfold compatible in C; apply andb_prop in C; destruct C as [_ C];
    rewrite E, F, Nat.eqb_refl in C; cbn in C; apply andb_prop in C; tauto.
Qed.

Lemma size_oneof r f : struct_of r = Some m -> In f (md_fields (md_of sc m)) -> is_oneof f = true -> step_ok (GS r) (gen_oneof dp m (md_of sc m) (f_slot f)).
Proof.
  intros R I O. pose proof (slot_ok sc W m Hm f I) as S. rewrite O in S. unfold gen_oneof, step_ok.
  destruct (is_known (dp m)) eqn:K.
  - destruct (cases_ok r (f_slot f) (filter (fun g => Nat.eqb (f_slot g) (f_slot f)) (md_fields (md_of sc m))) 3 K) as [u [U V]].
    { apply slot_fields. exists f. auto. }
    assert (Q : In 3%nat u).
    { apply V. intros N. assert (X : In f (filter (fun g => Nat.eqb (f_slot g) (f_slot f)) (md_fields (md_of sc m)))) by (apply filter_In; split; [exact I|apply Nat.eqb_refl]). rewrite N in X. destruct X. }
    eexists. eapply ck_switch; [unfold GS; leaf S| |exact U|].
    + rewrite case_nums_ok. apply distinct_ok, pairwise_filter. pose proof (wf_m sc W m Hm) as M. unfold wf_msg in M. apply andb_prop in M. apply M.
    + unfold close. cbn [List.length GS Nat.sub seq forallb].
      replace (existsb (Nat.eqb 3) u) with true; [reflexivity|]. symmetry. apply existsb_exists. exists 3%nat. auto.
  - unfold GS. eexists. ck S.
Qed.

Lemma size_fields r seen' l : struct_of r = Some m -> (forall f, In f l -> In f (md_fields (md_of sc m))) ->
  forall s, In s (gen_fields dp m (md_of sc m) seen' l) -> step_ok (GS r) s.
Proof.
  intros R. revert seen'. induction l as [|f l IH]; intros seen' H s; cbn [gen_fields]; [intros []|].
  destruct (is_oneof f) eqn:O.
  - destruct (existsb _ _); [apply IH; intros g G; apply H; now right|]. intros [<-|I]; [|eapply IH; [|exact I]; intros g G; apply H; now right].
    apply size_oneof; [exact R|apply H; now left|exact O].
  - intros [<-|I]; [|eapply IH; [|exact I]; intros g G; apply H; now right].
    pose proof (slot_ok sc W m Hm f (H f (or_introl eq_refl))) as S. rewrite O in S. pose proof (wf_f sc W m Hm f (H f (or_introl eq_refl))) as T.
    destruct f as [num s t]. cbn [f_slot f_ty] in *. destruct t as [lab k|kk vk].
    + apply size_plain; auto. intros ->. discriminate O.
    + cbn [wf_type] in T. apply andb_prop in T. destruct T as [T1 T2]. apply andb_prop in T1. destruct T1 as [T1 _]. apply size_map; auto. destruct vk; try reflexivity; discriminate T2.
Qed.

Lemma returns_end l e : returns (block (l ++ [SReturn e])) = true.
Proof.
  induction l as [|s l IH]; [reflexivity|]. cbn [app block returns]. destruct (block (l ++ [SReturn e])) eqn:B; try exact IH.
  destruct l; discriminate B.
Qed.

Lemma body_ok r l e : (exists t, r = YPtr t) -> (forall s, In s l -> step_ok (GS r) s) -> e = EVar "n" ->
  compiles sc dp wrap declared [("m", r); ("n", YInt)] [YInt] (block (prologue ++ l ++ [SReturn e])) = true.
Proof.
  intros [t ->] H ->. unfold compiles. replace (returns _) with true by (symmetry; rewrite app_assoc; apply returns_end).
  destruct (block_ok (GS (YPtr t)) (l ++ [SReturn (EVar "n")])) as [u U].
  { intros s I. apply in_app_or in I. destruct I as [I|[<-|[]]]; [auto|]. eexists. apply ck_return. reflexivity. }
  unfold prologue. cbn [app block].
  match goal with |- match close ?P ?c with _ => _ end = true => assert (X : exists w, c = Some (GS (YPtr t), [1%nat; 2%nat] ++ w)) end.
  { eexists. erewrite ck_seq; [|eapply ck_if; [reflexivity|reflexivity|reflexivity] | eapply ck_seq; [apply ck_var; reflexivity|eapply ck_seq; [eapply ck_blank; reflexivity|exact U]]].
    reflexivity. }
  destruct X as [w ->]. reflexivity.
Qed.

Lemma size_message : (wrap = true -> md_keep (md_of sc m) = false) ->
  compiles sc dp wrap declared [("m", recv wrap m); ("n", YInt)] [YInt] (gen_SizeVT dp m (md_of sc m)) = true.
Proof.
  intros K. unfold gen_SizeVT. rewrite !app_assoc. rewrite <- app_assoc. rewrite <- app_assoc. rewrite (app_assoc (gen_fields _ _ _ _ _)).
  assert (R : struct_of (recv wrap m) = Some m) by (unfold recv; destruct wrap; reflexivity).
  apply body_ok; [eexists; reflexivity| |reflexivity].
  intros s I. apply in_app_or in I. destruct I as [I|I].
  - eapply size_fields; [exact R|intros f F; exact F|exact I].
  - destruct (md_keep (md_of sc m)) eqn:Q; [|destruct I]. destruct I as [<-|[]].
    assert (Ew : wrap = false) by (destruct wrap; [specialize (K eq_refl); congruence|reflexivity]).
    assert (Hl : dp m = DLocal) by (generalize Hw; rewrite Ew; auto).
    unfold recv. rewrite Ew. eexists. eapply ck_add; [reflexivity|reflexivity|]. unfold gives, GS. cbn. unfold is_local. rewrite Hl, Ew. reflexivity.
Qed.

Lemma size_wrapper f : In f (md_fields (md_of sc m)) -> is_oneof f = true ->
  compiles sc dp wrap declared [("m", recv_in wrap m (f_num f)); ("n", YInt)] [YInt] (gen_wrapper_SizeVT dp f) = true.
Proof.
  intros I O. pose proof (in_ok sc W m Hm f I O) as S. pose proof (wf_f sc W m Hm f I) as T.
  change (gen_wrapper_SizeVT dp f) with (block (prologue ++ [gen_field dp f] ++ [SReturn (EVar "n")])).
  apply body_ok; [eexists; reflexivity| |reflexivity]. intros s [<-|[]].
  destruct f as [num s t]. cbn [f_num f_ty] in *. destruct t as [lab k|kk vk]; [|discriminate O]. destruct lab; try discriminate O.
  apply size_in; [unfold recv_in; destruct wrap; auto|exact S|]. cbn in T. apply andb_prop in T. destruct T as [_ T]. destruct k; try reflexivity; discriminate T.
Qed.
End Size.
