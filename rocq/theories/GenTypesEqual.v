(** The code of GenEqual.v obeys the rules of GoTypesEqual.v. *)
From Coq Require Import ZArith List Bool String Arith Lia.
From Verif Require Import Base Schema Value Typing GoSyntax GenSize OrderFacts GoTypes GenTypes GenTypesFacts GenTypesMarshal GoEqual GenEqual GoTypesEqual.
Import ListNotations.
Open Scope string_scope.
Open Scope Z_scope.
Open Scope list_scope.

(** Blocks. *)
Definition below (G : qctx) (u : list nat) : list nat := filter (fun i => Nat.ltb i (List.length G)) u.
Lemma close_same G u : qclose G G u = Some (below G u).
Proof. unfold qclose. rewrite Nat.sub_diag. reflexivity. Qed.
Lemma mem_ok i u : In i u -> existsb (Nat.eqb i) u = true.
Proof. intros H. apply existsb_exists. exists i. split; [exact H|apply Nat.eqb_refl]. Qed.
Lemma close_one G a u : In (List.length G) u -> qclose G (a :: G) u = Some (below G u).
Proof.
  intros H. unfold qclose. replace (List.length (a :: G) - List.length G)%nat with 1%nat by (cbn [List.length]; lia).
  cbn [firstn map qdistinct existsb negb andb seq forallb]. rewrite (mem_ok _ _ H). reflexivity.
Qed.
Lemma close_two G a b u : String.eqb (fst b) (fst a) = false -> In (List.length G) u -> In (S (List.length G)) u -> qclose G (b :: a :: G) u = Some (below G u).
Proof.
  intros E H K. unfold qclose. replace (List.length (b :: a :: G) - List.length G)%nat with 2%nat by (cbn [List.length]; lia).
  cbn [firstn map qdistinct existsb negb andb seq forallb]. rewrite E, (mem_ok _ _ H), (mem_ok _ _ K). reflexivity.
Qed.
Lemma below_in G u i : (i < List.length G)%nat -> In i u -> In i (below G u).
Proof. intros L H. apply filter_In. split; [exact H|apply Nat.ltb_lt, L]. Qed.

Section Equal.
Variable sc : schema.
Variable dp : nat -> dispatch.
Variable wrap : bool.
Hypothesis W : wf_schema sc = true.
Variable m : nat.
Hypothesis Hm : (m < List.length (sc_msgs sc))%nat.
Hypothesis Hw : if wrap then forall m', dp m' <> DLocal else dp m = DLocal.

Notation ck := (qcheck sc dp wrap m).
Notation ty := (qty sc dp wrap m).
Notation cond := (qcond sc dp wrap m).

(** A statement is accepted, declares nothing and reads the variables [r]. *)
Definition step (G : qctx) (s : qstmt) (r : list nat) : Prop :=
  exists u, ck G s = Some (G, u) /\ forall i, (i < List.length G)%nat -> In i r -> In i u.

Lemma fail_ok G c u : cond G c = Some u -> ck G (fail_if c) = Some (G, u).
Proof. intros H. unfold fail_if. cbn [qcheck]. rewrite H. unfold qcond. cbn [qty]. rewrite !close_same. cbn. rewrite app_nil_r. reflexivity. Qed.

Lemma seq_ok G G1 G2 a b u v : ck G a = Some (G1, u) -> ck G1 b = Some (G2, v) -> ck G (QSeq a b) = Some (G2, u ++ v).
Proof. intros A B. cbn [qcheck]. rewrite A, B. reflexivity. Qed.

Lemma fail_step G c u : cond G c = Some u -> step G (fail_if c) u.
Proof. intros H. exists u. split; [apply fail_ok, H|auto]. Qed.

(** if p, q := l, r; c { s } *)
Lemma with_step G l r c s t ul ur w x : t <> YNil -> ty G l = Some (T t, ul) -> ty G r = Some (T t, ur) ->
  cond (("q", T t) :: ("p", T t) :: G) c = Some w -> In (List.length G) w -> In (S (List.length G)) w ->
  ck (("q", T t) :: ("p", T t) :: G) s = Some (("q", T t) :: ("p", T t) :: G, x) -> step G (QWith l r c s) (ul ++ ur).
Proof.
  intros N L R C I J B. unfold step. cbn [qcheck]. rewrite L, R, C, B, close_same.
  rewrite close_two; [|reflexivity|apply in_or_app; auto|apply in_or_app; auto].
  exists (ul ++ ur ++ below G (w ++ below (("q", T t) :: ("p", T t) :: G) x)). split; [replace (is_ynil (T t)) with false by (destruct t; try reflexivity; congruence); reflexivity|].
  intros i _ H. rewrite app_assoc. apply in_or_app. auto.
Qed.

Lemma scalar_step G l r t ul ur nullable : qcomparable (T t) (T t) = true -> t <> YNil ->
  ty G l = Some (T (if nullable : bool then YPtr t else t), ul) -> ty G r = Some (T (if nullable then YPtr t else t), ur) ->
  step G (gen_scalar_eq l r nullable) (ul ++ ur).
Proof.
  intros C N L R. unfold gen_scalar_eq. destruct nullable.
  - eapply with_step; [|exact L|exact R| | | |]; [discriminate| | | |].
    + unfold qcond, isnil, notnil. cbn [qty qvar String.eqb Ascii.eqb Bool.eqb qcomparable is_nilable]. cbn [qcomparable] in C. rewrite C. reflexivity.
    + cbn. auto.
    + cbn. auto.
    + reflexivity.
  - apply fail_step. unfold qcond. cbn [qty]. rewrite L, R, C. reflexivity.
Qed.

Lemma bytes_step G l r ul ur nullable : ty G l = Some (T YBytes, ul) -> ty G r = Some (T YBytes, ur) -> step G (gen_bytes_eq l r nullable) (ul ++ ur).
Proof.
  intros L R. unfold gen_bytes_eq. destruct nullable.
  - eapply with_step; [|exact L|exact R| | | |]; [discriminate| | | |].
    + reflexivity.
    + cbn. auto.
    + cbn. auto.
    + reflexivity.
  - apply fail_step. unfold qcond. cbn [qty]. rewrite L, R. reflexivity.
Qed.

(** The scope of the call: the operands mean the same there. *)
Definition inner (a : nat) (G : qctx) : qctx := ("ok", T YBool) :: ("equal", TEqual (YPtr (YMsg a))) :: G.

Lemma close_inner a G u : In (List.length G) u -> In (S (List.length G)) u -> qclose G (inner a G) u = Some (below G u).
Proof. intros A B. unfold inner. apply close_two; auto. Qed.

Lemma call_step G l r fn a ul ur : qnamed sc m fn = Some a ->
  ty G l = Some (T (YPtr (YMsg a)), ul) -> ty G r = Some (T (YPtr (YMsg a)), ur) ->
  ty (inner a G) l = Some (T (YPtr (YMsg a)), ul) -> ty (inner a G) r = Some (T (YPtr (YMsg a)), ur) ->
  step G (gen_call dp fn l r a) (ul ++ ur).
Proof.
  intros N L R L' R'. unfold gen_call. destruct (dp a) eqn:D.
  all: try (apply fail_step; unfold qcond; cbn [qty]; rewrite L, R; unfold msg_eqb; rewrite ?Nat.eqb_refl, ?D; cbn [GenSize.is_known andb qparam]; rewrite ?D; cbn [GenSize.is_known qpasses same]; unfold msg_eqb, is_local; rewrite ?D, ?Nat.eqb_refl; cbn [andb negb]).
  - reflexivity.
  - assert (E : wrap = false) by (generalize Hw; destruct wrap; [intros X; exfalso; exact (X a D)|reflexivity]). rewrite E. cbn [negb andb]. rewrite Nat.eqb_refl. reflexivity.
  - assert (A : ck (inner a G) (fail_if (XNot (XEqual (XVar "equal") r))) = Some (inner a G, List.length G :: ur)).
    { apply fail_ok. unfold qcond. cbn [qty]. rewrite R'. unfold inner. cbn [qvar String.eqb Ascii.eqb Bool.eqb qparam qpasses same]. unfold msg_eqb. rewrite Nat.eqb_refl. reflexivity. }
    assert (B : ck (inner a G) (fail_if (XNot (XProto l r))) = Some (inner a G, ul ++ ur)).
    { apply fail_ok. unfold qcond. cbn [qty]. rewrite L', R'. reflexivity. }
    unfold step. cbn [qcheck]. rewrite L, N. fold (inner a G). rewrite A, B, !close_same.
    rewrite close_inner.
    + exists (ul ++ below G (S (List.length G) :: below (inner a G) (List.length G :: ur) ++ below (inner a G) (ul ++ ur))). split; [reflexivity|].
      intros i I H. apply in_app_or in H. apply in_or_app. destruct H as [H|H]; [auto|]. right. apply below_in; [exact I|]. right. apply in_or_app. right.
      apply below_in; [cbn; lia|]. apply in_or_app. auto.
    + right. apply in_or_app. left. apply below_in; [cbn; lia|]. left. reflexivity.
    + left. reflexivity.
Qed.

Lemma new_ok G x fn a i : qvar x G = Some (i, T (YPtr (YMsg a))) -> qnamed sc m fn = Some a -> ck G (QIf (isnil (XVar x)) (QNew x fn a) QSkip) = Some (G, [i]).
Proof.
  intros V N. cbn [qcheck]. unfold qcond, isnil. cbn [qty]. rewrite V, N. cbn [qcomparable is_nilable]. unfold msg_eqb. rewrite Nat.eqb_refl, !close_same. reflexivity.
Qed.

Lemma msg_step G l r fn a ul ur nullable : qnamed sc m fn = Some a ->
  ty G l = Some (T (YPtr (YMsg a)), ul) -> ty G r = Some (T (YPtr (YMsg a)), ur) ->
  ty (inner a G) l = Some (T (YPtr (YMsg a)), ul) -> ty (inner a G) r = Some (T (YPtr (YMsg a)), ur) ->
  step G (gen_msg_eq dp fn l r a nullable) (ul ++ ur).
Proof.
  intros N L R L' R'. unfold gen_msg_eq. destruct nullable; [apply call_step; auto|].
  set (G1 := ("q", T (YPtr (YMsg a))) :: ("p", T (YPtr (YMsg a))) :: G).
  destruct (call_step G1 (XVar "p") (XVar "q") fn a [List.length G] [S (List.length G)] N eq_refl eq_refl eq_refl eq_refl) as (x & X & _).
  eapply with_step; [|exact L|exact R| | | |]; [discriminate| | | |].
  - unfold qcond. cbn [qty qvar String.eqb Ascii.eqb Bool.eqb qcomparable same comparable]. unfold msg_eqb. rewrite Nat.eqb_refl. reflexivity.
  - cbn. auto.
  - cbn. auto.
  - fold G1. cbn [qblock]. pose proof (new_ok G1 "p" fn a _ eq_refl N) as A. pose proof (new_ok G1 "q" fn a _ eq_refl N) as B.
    unfold qblock. cbn [qcheck] in A, B |- *. rewrite A, B, X. reflexivity.
Qed.

(** What a field of kind [k] of the code compares. *)
Definition operand (k : kind) (nullable : bool) : gtyp :=
  match k with KBytes | KMessage _ | KGroup _ => kind_ty k | _ => if nullable then YPtr (kind_ty k) else kind_ty k end.

Lemma kind_step G l r fn k ul ur nullable :
  (forall a, k = KMessage a \/ k = KGroup a -> qnamed sc m fn = Some a) ->
  ty G l = Some (T (operand k nullable), ul) -> ty G r = Some (T (operand k nullable), ur) ->
  (forall a, ty (inner a G) l = Some (T (operand k nullable), ul)) -> (forall a, ty (inner a G) r = Some (T (operand k nullable), ur)) ->
  step G (gen_kind_eq dp fn l r k nullable) (ul ++ ur).
Proof.
  intros N L R L' R'. unfold gen_kind_eq.
  destruct k as [| | | | | | | | |a|a| | | | | | |]; cbn [operand classify] in *; try (eapply scalar_step; [| |exact L|exact R]; [reflexivity|discriminate]).
  - apply msg_step; auto.
  - apply msg_step; auto.
  - apply bytes_step; auto.
Qed.

Lemma named_msg f : In f (md_fields (md_of sc m)) -> forall a, (match f_ty f with TField _ k => k | TMap _ vk => vk end) = KMessage a \/ (match f_ty f with TField _ k => k | TMap _ vk => vk end) = KGroup a ->
  qnamed sc m (f_num f) = Some a.
Proof.
  intros I a. unfold qnamed. rewrite (find_ok sc W m Hm f I). destruct (f_ty f) as [l k|kk vk]; intros [-> | ->]; reflexivity.
Qed.

(** The methods of a message. *)
Section Message.
Variable t : gtyp.
Hypothesis Ht : struct_of t = Some m.
Definition GM : qctx := [("that", T t); ("this", T t)].

Lemma sel_this G s y : qvar "this" G = Some (0%nat, T t) -> slot_ty sc m s = Some y -> ty G (XSel (XVar "this") (MSlot s)) = Some (T y, [0%nat]).
Proof. intros V S. cbn [qty]. rewrite V, Ht, S. reflexivity. Qed.
Lemma sel_that G s y : qvar "that" G = Some (1%nat, T t) -> slot_ty sc m s = Some y -> ty G (XSel (XVar "that") (MSlot s)) = Some (T y, [1%nat]).
Proof. intros V S. cbn [qty]. rewrite V, Ht, S. reflexivity. Qed.

Lemma len_ok s y : slot_ty sc m s = Some y -> (match y with YSlice _ | YMap _ _ => true | _ => false end) = true ->
  ck GM (fail_if (XNe (XLen (XSel (XVar "this") (MSlot s))) (XLen (XSel (XVar "that") (MSlot s))))) = Some (GM, [0%nat; 1%nat]).
Proof.
  intros S Y. apply fail_ok. unfold qcond. pose proof (sel_this GM s y eq_refl S) as A. pose proof (sel_that GM s y eq_refl S) as B. cbn [qty] in A, B |- *.
  rewrite A, B. destruct y; try discriminate Y; reflexivity.
Qed.

Lemma field_step f : In f (md_fields (md_of sc m)) -> is_oneof f = false -> exists u, ck GM (gen_field_eq dp f) = Some (GM, u).
Proof.
  intros I O. pose proof (slot_ok sc W m Hm f I) as S. rewrite O in S. pose proof (named_msg f I) as N. unfold is_oneof in O.
  unfold gen_field_eq, nullable_of. destruct (f_ty f) as [lab k|kk vk] eqn:T0.
  - assert (P : forall nl, operand k nl = field_ty (TField lab k) -> exists u, ck GM (gen_kind_eq dp (f_num f) (XSel (XVar "this") (MSlot (f_slot f))) (XSel (XVar "that") (MSlot (f_slot f))) k nl) = Some (GM, u)).
    { intros nl E. rewrite <- E in S. destruct (kind_step GM (XSel (XVar "this") (MSlot (f_slot f))) (XSel (XVar "that") (MSlot (f_slot f))) (f_num f) k [0%nat] [1%nat] nl N) as (u & U & _).
      - apply sel_this; auto.
      - apply sel_that; auto.
      - intros a. apply sel_this; auto.
      - intros a. apply sel_that; auto.
      - exists u. exact U. }
    destruct lab as [| | |b|]; try discriminate O; try (apply P; destruct k; reflexivity).
    clear P. cbn [field_ty] in S. set (G1 := ("vx", T (kind_ty k)) :: ("i", T YInt) :: GM). set (G2 := ("vy", T (kind_ty k)) :: G1).
    assert (C1 : forall u, In 2%nat u -> In 3%nat u -> qclose GM G1 u = Some (below GM u)) by (intros; apply close_two; [reflexivity|assumption|assumption]).
    assert (E : operand k false = kind_ty k) by (destruct k; reflexivity).
    destruct (kind_step G2 (XVar "vx") (XVar "vy") (f_num f) k [3%nat] [4%nat] false N) as (u & U & V); try (rewrite E; reflexivity); try (intros a; rewrite E; reflexivity).
    cbn [qcheck]. rewrite (len_ok _ _ S eq_refl). cbn [qcheck]. rewrite (sel_this GM _ _ eq_refl S). fold G1.
    cbn [qblock qcheck]. rewrite (sel_that G1 _ _ eq_refl S). cbn [qvar G1 String.eqb Ascii.eqb Bool.eqb GM List.length]. fold GM. fold G1. fold G2. rewrite U.
    assert (C2 : forall u, In 4%nat u -> qclose G1 G2 u = Some (below G1 u)) by (intros; apply close_one; assumption). rewrite C2; [|apply in_or_app; right; apply in_or_app; left; apply V; cbn; auto; lia].
    rewrite C1; [eexists; reflexivity| |].
    + apply below_in; [cbn; lia|]. cbn. auto.
    + apply below_in; [cbn; lia|]. apply in_or_app. right. apply in_or_app. left. apply V; cbn; auto; lia.
  - cbn [field_ty] in S. set (G1 := ("vx", T (kind_ty vk)) :: ("i", T (kind_ty kk)) :: GM). set (G2 := ("ok", T YBool) :: ("vy", T (kind_ty vk)) :: G1).
    assert (C1 : forall u, In 2%nat u -> In 3%nat u -> qclose GM G1 u = Some (below GM u)) by (intros; apply close_two; [reflexivity|assumption|assumption]).
    assert (E : operand vk false = kind_ty vk) by (destruct vk; reflexivity).
    destruct (kind_step G2 (XVar "vx") (XVar "vy") (f_num f) vk [3%nat] [4%nat] false N) as (u & U & V); try (rewrite E; reflexivity); try (intros a; rewrite E; reflexivity).
    assert (K : same (kind_ty kk) (kind_ty kk) = true) by (destruct kk; cbn; unfold msg_eqb; rewrite ?Nat.eqb_refl; reflexivity).
    cbn [qcheck]. rewrite (len_ok _ _ S eq_refl). cbn [qcheck]. rewrite (sel_this GM _ _ eq_refl S). fold G1.
    cbn [qblock qcheck]. rewrite (sel_that G1 _ _ eq_refl S). cbn [qvar G1 String.eqb Ascii.eqb Bool.eqb GM List.length]. fold GM. fold G1. rewrite K. fold G2.
    rewrite (fail_ok G2 (XNot (XVar "ok")) [5%nat] eq_refl). rewrite U.
    assert (C2 : forall u, In 4%nat u -> In 5%nat u -> qclose G1 G2 u = Some (below G1 u)) by (intros; apply close_two; [reflexivity|assumption|assumption]). rewrite C2.
    + rewrite C1; [eexists; reflexivity| |].
      * apply below_in; [cbn; lia|]. cbn. auto.
      * apply below_in; [cbn; lia|]. apply in_or_app. right. apply in_or_app. right. apply in_or_app. left. apply V; cbn; auto; lia.
    + apply in_or_app. right. apply in_or_app. right. apply in_or_app. left. apply V; cbn; auto; lia.
    + apply in_or_app. right. apply in_or_app. left. cbn. auto.
Qed.

(** Oneofs. *)
Lemma qcase_nums s l : case_nums (GenEqual.gen_cases s l) = map f_num l.
Proof. induction l as [|f l IH]; [reflexivity|]. cbn. rewrite IH. reflexivity. Qed.
Lemma qcase_is s l : is_case (GenEqual.gen_cases s l) = true.
Proof. destruct l; reflexivity. Qed.

Lemma cases_step s l : wrap = true -> dp m = DKnown -> slot_ty sc m s = Some (YOne m s) -> of_slot sc m s l ->
  exists u, ck (("c", T (YOne m s)) :: GM) (GenEqual.gen_cases s l) = Some (("c", T (YOne m s)) :: GM, u) /\ (l <> [] -> In 2%nat u).
Proof.
  intros Ew K S. induction l as [|f l IH]; intros H.
  - exists []. split; [reflexivity|congruence].
  - destruct IH as (v & V & _); [intros g G; apply H; now right|]. destruct (H f (or_introl eq_refl)) as (I & O & E).
    assert (C : cond (("c", T (YPtr (YWrap m (f_num f)))) :: GM) (XNot (XEqual (XCastIn (f_num f) (XVar "c")) (XSel (XVar "that") (MSlot s)))) = Some [2%nat; 1%nat]).
    { pose proof (sel_that (("c", T (YPtr (YWrap m (f_num f)))) :: GM) s _ eq_refl S) as B. unfold qcond. cbn [qty] in B |- *. rewrite B.
      cbn [qvar GM String.eqb Ascii.eqb Bool.eqb List.length]. rewrite Ew. unfold msg_eqb. rewrite Nat.eqb_refl, Z.eqb_refl. cbn [andb qparam]. rewrite K. reflexivity. }
    cbn [GenEqual.gen_cases qcheck]. pose proof (implements_ok sc W m Hm f I O) as M. rewrite E in M. rewrite M, qcase_is. cbn [String.eqb Ascii.eqb Bool.eqb andb].
    rewrite (fail_ok _ _ _ C), V, close_same. eexists. split; [reflexivity|]. intros _. apply in_or_app. left. left. reflexivity.
Qed.

Lemma oneof_step f : In f (md_fields (md_of sc m)) -> is_oneof f = true -> (wrap = true -> dp m = DKnown) ->
  exists u, ck GM (gen_oneof_eq (GenEqual.is_known dp m) (md_of sc m) (f_slot f)) = Some (GM, u).
Proof.
  intros I O Hk. pose proof (slot_ok sc W m Hm f I) as S. rewrite O in S. unfold gen_oneof_eq.
  assert (B : exists v, ck GM (if GenEqual.is_known dp m
           then QSwitch (XSel (XVar "this") (MSlot (f_slot f))) (GenEqual.gen_cases (f_slot f) (filter (fun f0 => is_oneof f0 && Nat.eqb (f_slot f0) (f_slot f)) (md_fields (md_of sc m))))
           else fail_if (XNot (XEqual (XIface (f_slot f) (XSel (XVar "this") (MSlot (f_slot f)))) (XSel (XVar "that") (MSlot (f_slot f)))))) = Some (GM, v)).
  { unfold GenEqual.is_known. destruct (Bool.bool_dec wrap true) as [Ew|Ew]; [|apply not_true_is_false in Ew].
    - rewrite (Hk Ew). set (l := filter _ _).
      destruct (cases_step (f_slot f) l) as (u & U & V).
      + exact Ew.
      + apply Hk, Ew.
      + exact S.
      + intros g G. apply filter_In in G. destruct G as [G E]. apply andb_prop in E. destruct E as [E F]. apply Nat.eqb_eq in F. auto.
      + assert (X : In f l) by (apply filter_In; split; [exact I|rewrite O, Nat.eqb_refl; reflexivity]).
        cbn [qcheck]. pose proof (sel_this GM (f_slot f) _ eq_refl S) as A. rewrite A, U, qcase_is, qcase_nums.
        rewrite (distinct_ok l) by (apply pairwise_filter; pose proof (wf_m sc W m Hm) as M; unfold wf_msg in M; apply andb_prop in M; apply M).
        rewrite Nat.eqb_refl. cbn [andb]. rewrite close_one; [eexists; reflexivity|]. apply V. intros N. rewrite N in X. destruct X.
    - assert (D : dp m = DLocal) by (generalize Hw; rewrite ?Ew; auto). rewrite D. eexists. apply fail_ok. unfold qcond.
      pose proof (sel_this GM (f_slot f) _ eq_refl S) as A. pose proof (sel_that GM (f_slot f) _ eq_refl S) as B. cbn [qty] in A, B |- *. rewrite A, B, Ew.
      unfold msg_eqb. rewrite !Nat.eqb_refl. cbn [andb negb qparam qpasses same]. unfold msg_eqb. rewrite !Nat.eqb_refl. reflexivity. }
  destruct B as (v & B). pose proof (sel_this GM (f_slot f) _ eq_refl S) as A1. pose proof (sel_that GM (f_slot f) _ eq_refl S) as A2.
  assert (F : ck GM (fail_if (isnil (XSel (XVar "that") (MSlot (f_slot f))))) = Some (GM, [1%nat])).
  { apply fail_ok. unfold qcond, isnil. cbn [qty] in A2 |- *. rewrite A2. reflexivity. }
  assert (C1 : cond GM (XAnd (isnil (XSel (XVar "this") (MSlot (f_slot f)))) (notnil (XSel (XVar "that") (MSlot (f_slot f))))) = Some [0%nat; 1%nat]).
  { unfold qcond, isnil, notnil. cbn [qty] in A1, A2 |- *. rewrite A1, A2. reflexivity. }
  assert (C2 : cond GM (notnil (XSel (XVar "this") (MSlot (f_slot f)))) = Some [0%nat]).
  { unfold qcond, notnil. cbn [qty] in A1 |- *. rewrite A1. reflexivity. }
  cbn [qcheck]. rewrite C1, C2, F, B, !close_same. cbn [qcond qty]. eexists. reflexivity.
Qed.

Lemma steps_ok l s u : (forall x, In x l -> exists v, ck GM x = Some (GM, v)) -> ck GM s = Some (GM, u) -> exists v, ck GM (qblock (l ++ [s])) = Some (GM, v).
Proof.
  intros H S. induction l as [|x l IH].
  - cbn [app qblock qcheck]. rewrite S. eexists. reflexivity.
  - destruct IH as (v & V); [intros y Y; apply H; now right|]. destruct (H x (or_introl eq_refl)) as (w & E). cbn [app qblock qcheck]. rewrite E, V. eexists. reflexivity.
Qed.

Lemma qreturns_last l e : qreturns (qblock (l ++ [QRet e])) = true.
Proof.
  induction l as [|x l IH]; [reflexivity|]. cbn [app qblock qreturns]. destruct (qblock (l ++ [QRet e])) eqn:B; try exact IH. destruct l; discriminate B.
Qed.

Lemma message_ok : t = YPtr (if wrap then YOwn m else YMsg m) -> (wrap = true -> dp m = DKnown /\ md_keep (md_of sc m) = false) ->
  qcompiles sc dp wrap m GM (gen_equal dp m (md_of sc m)) = true.
Proof.
  intros Et Hk. unfold qcompiles, gen_equal. rewrite !app_assoc.
  match goal with |- context [qblock (?a ++ [QRet _])] => set (l := a) end.
  assert (B : forall x, In x l -> exists v, ck GM x = Some (GM, v)).
  { intros x X. unfold l in X. apply in_app_or in X. destruct X as [X|X]; [apply in_app_or in X; destruct X as [[<-|[]]|X]|].
    - assert (Q : qcomparable (T t) (T t) = true) by (rewrite Et; destruct wrap; cbn; unfold msg_eqb; rewrite Nat.eqb_refl; reflexivity).
      assert (N : qcomparable (T t) (T YNil) = true) by (rewrite Et; reflexivity).
      cbn [qcheck]. unfold qcond, isnil. cbn [qty qvar GM String.eqb Ascii.eqb Bool.eqb]. rewrite Q, N. fold GM. rewrite !close_same. eexists. reflexivity.
    - apply in_map_iff in X. destruct X as (s & <- & X). apply slots_In in X. destruct X as (f & F & O & <-). apply (proj1 (sort_In f _)) in F.
      apply oneof_step; [exact F|exact O|intros E; apply Hk, E].
    - apply in_map_iff in X. destruct X as (f & <- & X). apply filter_In in X. destruct X as [X O]. apply (proj1 (sort_In f _)) in X. apply field_step; [exact X|].
      apply negb_true_iff, O. }
  set (e := if md_keep _ then _ else _).
  assert (R : exists u, ck GM (QRet e) = Some (GM, u)).
  { cbn [qcheck]. unfold e, qcond. destruct (md_keep (md_of sc m)) eqn:K; [|eexists; reflexivity].
    assert (Ew : wrap = false) by (destruct wrap eqn:Ew; [destruct (Hk eq_refl); congruence|reflexivity]).
    assert (D : dp m = DLocal) by (generalize Hw; rewrite Ew; auto).
    cbn [qty qvar GM String.eqb Ascii.eqb Bool.eqb]. rewrite Et, Ew. unfold is_local. rewrite D. eexists. reflexivity. }
  destruct R as (u & R). destruct (steps_ok l _ u B R) as (v & V). rewrite V. fold GM. rewrite qreturns_last.
  unfold qclose. cbn. reflexivity.
Qed.
End Message.

Lemma equal_message_ok : wrap = false -> qcompiles sc dp wrap m [("thatMsg", TProto); ("this", T (YPtr (YMsg m)))] gen_equal_message = true.
Proof.
  intros Ew. assert (D : dp m = DLocal) by (generalize Hw; rewrite Ew; auto).
  unfold qcompiles, gen_equal_message. rewrite Ew. cbn. unfold qcond. cbn. unfold is_local. rewrite D. cbn. unfold msg_eqb. rewrite Nat.eqb_refl. reflexivity.
Qed.

(** The method of a oneof wrapper. *)
Lemma wrapper_ok f : In f (md_fields (md_of sc m)) -> is_oneof f = true -> (wrap = true -> dp m = DKnown) ->
  qcompiles sc dp wrap m [("thatIface", if wrap then TAny else T (YOne m (f_slot f))); ("this", T (YPtr (if wrap then YOwnWrap m (f_num f) else YWrap m (f_num f))))]
    (gen_wrapper_eq dp (GenEqual.is_known dp m) f) = true.
Proof.
  intros I O Hk. pose proof (in_ok sc W m Hm f I O) as J. pose proof (implements_ok sc W m Hm f I O) as M. pose proof (named_msg f I) as N.
  assert (K : GenEqual.is_known dp m = wrap).
  { unfold GenEqual.is_known. destruct wrap eqn:Ew; [rewrite (Hk eq_refl)|rewrite Hw]; reflexivity. }
  unfold gen_wrapper_eq. rewrite K. clear K Hk. destruct (f_ty f) as [lab k|kk vk] eqn:T0; [|unfold is_oneof in O; rewrite T0 in O; discriminate O].
  assert (Ol : lab = LOneof) by (unfold is_oneof in O; rewrite T0 in O; destruct lab; try discriminate O; reflexivity). subst lab. cbn [field_ty] in J.
  set (x := YPtr (if wrap then YOwnWrap m (f_num f) else YWrap m (f_num f))).
  set (G0 := [("thatIface", if wrap then TAny else T (YOne m (f_slot f))); ("this", T x)]).
  set (G := ("ok", T YBool) :: ("that", T x) :: G0).
  assert (E : operand k false = kind_ty k) by (destruct k; reflexivity).
  assert (L : forall G', qvar "this" G' = Some (0%nat, T x) -> ty G' (XSel (XVar "this") (MIn (f_num f))) = Some (T (kind_ty k), [0%nat])).
  { intros G' V. cbn [qty]. rewrite V. unfold x. destruct wrap; rewrite Z.eqb_refl, J; reflexivity. }
  assert (R : forall G', qvar "that" G' = Some (2%nat, T x) -> ty G' (XSel (XVar "that") (MIn (f_num f))) = Some (T (kind_ty k), [2%nat])).
  { intros G' V. cbn [qty]. rewrite V. unfold x. destruct wrap; rewrite Z.eqb_refl, J; reflexivity. }
  destruct (kind_step G (XSel (XVar "this") (MIn (f_num f))) (XSel (XVar "that") (MIn (f_num f))) (f_num f) k [0%nat] [2%nat] false N) as (u & U & _).
  { rewrite E. apply L. reflexivity. }
  { rewrite E. apply R. reflexivity. }
  { intros a. rewrite E. apply L. reflexivity. }
  { intros a. rewrite E. apply R. reflexivity. }
  assert (A1 : ck G0 (QThat (f_num f)) = Some (G, [1%nat])).
  { cbn [qcheck G0 qvar String.eqb Ascii.eqb Bool.eqb]. unfold G, G0, x. destruct wrap; [reflexivity|]. unfold msg_eqb. rewrite Nat.eqb_refl, M. reflexivity. }
  assert (A2 : exists v, ck G (QIf (XNot (XVar "ok")) (if wrap then QOther (f_num f) (QConvert (f_num f)) (QRet XFalse) else QRet XFalse) QSkip) = Some (G, v) /\ In 3%nat v).
  { unfold G, G0, x. destruct wrap.
    - cbn. unfold msg_eqb. rewrite Nat.eqb_refl, Z.eqb_refl. cbn. eexists. split; [reflexivity|]. cbn. auto.
    - cbn. eexists. split; [reflexivity|]. cbn. auto. }
  destruct A2 as (v & A2 & V3).
  assert (Q : qcomparable (T x) (T x) = true) by (unfold x; destruct wrap; cbn; unfold msg_eqb; rewrite Nat.eqb_refl, Z.eqb_refl; reflexivity).
  assert (A3 : ck G (QIf (XEq (XVar "this") (XVar "that")) (QRet XTrue) QSkip) = Some (G, [0%nat; 2%nat])).
  { cbn [qcheck]. unfold qcond. cbn [qty qvar G G0 String.eqb Ascii.eqb Bool.eqb]. rewrite Q. fold G0. fold G. rewrite !close_same. reflexivity. }
  assert (A4 : ck G (fail_if (XOr (XAnd (isnil (XVar "this")) (notnil (XVar "that"))) (XAnd (notnil (XVar "this")) (isnil (XVar "that"))))) = Some (G, [0%nat; 2%nat; 0%nat; 2%nat])).
  { apply fail_ok. reflexivity. }
  assert (A6 : ck G (QRet XTrue) = Some (G, [])) by reflexivity.
  pose proof (seq_ok _ _ _ _ _ _ _ A1 (seq_ok _ _ _ _ _ _ _ A2 (seq_ok _ _ _ _ _ _ _ A3 (seq_ok _ _ _ _ _ _ _ A4
    (seq_ok _ _ _ _ _ _ _ U (seq_ok _ _ _ _ _ _ _ A6 (eq_refl : ck G QSkip = Some (G, [])))))))) as B.
  unfold qcompiles, qblock. rewrite B.
  assert (F : forall w, In 2%nat w -> In 3%nat w -> qclose [] G ([0; 1]%nat ++ w) <> None).
  { intros w H2 H3. unfold qclose, G, G0. cbn [List.length Nat.sub firstn map fst seq forallb].
    rewrite !mem_ok; [discriminate|..]; cbn; auto. }
  destruct (qclose [] G _) eqn:Z0; [reflexivity|]. exfalso. refine (F _ _ _ Z0).
  - apply in_or_app. right. apply in_or_app. right. cbn. auto.
  - apply in_or_app. right. apply in_or_app. left. exact V3.
Qed.
End Equal.
