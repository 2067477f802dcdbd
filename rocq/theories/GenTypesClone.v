(** The code of GenClone.v obeys the rules of GoTypesClone.v. *)
From Coq Require Import ZArith List Bool String Arith Lia.
From Verif Require Import Base Schema Value Typing GoSyntax GenSize OrderFacts GoTypes GenTypes GenTypesFacts GoTypesUnmarshal GenTypesUnmarshal GenTypesUnMap GoEqual GoTypesEqual GenEqual GenTypesEqual GoClone GenClone GoTypesClone.
Import ListNotations.
Open Scope string_scope.
Open Scope Z_scope.
Open Scope list_scope.

Section Clone.
Variable sc : schema.
Variable dp : nat -> dispatch.
Variable wrap : bool.
Variable pools : nat -> bool.
Hypothesis W : wf_schema sc = true.
Variable m : nat.
Hypothesis Hm : (m < List.length (sc_msgs sc))%nat.
Hypothesis Hw : if wrap then forall m', dp m' <> DLocal else dp m = DLocal.
Variable R : qtyp.

Notation ck := (ccheck sc dp wrap pools m R).
Notation cy := (cty sc dp wrap pools m).
Notation lv := (clval sc dp wrap).

Lemma cseq_ok G G1 G2 a b u v : ck G a = Some (G1, u) -> ck G1 b = Some (G2, v) -> ck G (CSeq a b) = Some (G2, u ++ v).
Proof. intros A B. cbn [ccheck]. rewrite A, B. reflexivity. Qed.

Lemma same_kind k : same (kind_ty k) (kind_ty k) = true.
Proof. destruct k; cbn; unfold msg_eqb; rewrite ?Nat.eqb_refl; reflexivity. Qed.
Lemma assign_kind k : cassignable sc (T (kind_ty k)) (T (kind_ty k)) = true.
Proof. destruct k; cbn; unfold msg_eqb; rewrite ?Nat.eqb_refl; reflexivity. Qed.

Definition inner_c (a : nat) (G : qctx) : qctx := ("ok", T YBool) :: ("vtpb", TClone (YPtr (YMsg a))) :: G.
Lemma close_inner_c a G u : In (List.length G) u -> In (S (List.length G)) u -> qclose G (inner_c a G) u = Some (below G u).
Proof. intros A B. unfold inner_c. apply close_two; auto. Qed.

(** A statement is accepted, what it declares is read in it, and it reads the variables [r]. *)
Definition cstep (G : qctx) (s : cstmt) (r : list nat) : Prop :=
  exists G' u, ck G s = Some (G', u) /\ qclose G G' u = Some (below G u) /\ forall i, (i < List.length G)%nat -> In i r -> In i u.

(** An operand means the same in the scopes the code opens. *)
Definition scopes (G : qctx) (P : qctx -> Prop) : Prop := P G /\ (forall a, P (inner_c a G)) /\ P (("tmpBytes", T YBytes) :: G).

Lemma single_step G fn l e k ul ue :
  (forall a, k = KMessage a \/ k = KGroup a -> qnamed sc m fn = Some a) ->
  scopes G (fun G => lv G l = Some (kind_ty k, ul)) -> scopes G (fun G => cy G e = Some (T (kind_ty k), ue)) ->
  cstep G (gen_single dp fn l e k) (ul ++ ue) /\ (k <> KBytes -> exists u, ck G (gen_single dp fn l e k) = Some (G, u)).
Proof.
  intros N (L1 & L2 & L3) (E1 & E2 & E3).
  assert (P : ck G (CSet l e) = Some (G, ul ++ ue)) by (cbn [ccheck]; rewrite L1, E1, assign_kind; reflexivity).
  assert (Q : forall a, kind_ty k = YPtr (YMsg a) -> qnamed sc m fn = Some a ->
     exists u, ck G (match dp a with
      | DKnown => CSet l (CUncast fn a (CClone (CCast a e)))
      | DLocal => CSet l (CClone e)
      | DOther => CHas e fn (CSet l (CClone (CVar "vtpb"))) (CSet l (CProto fn e))
      end) = Some (G, u) /\ forall i, (i < List.length G)%nat -> In i (ul ++ ue) -> In i u).
  { intros a Y Na. rewrite Y in *.
    assert (As : cassignable sc (T (YPtr (YMsg a))) (T (YPtr (YMsg a))) = true) by (cbn; unfold msg_eqb; rewrite Nat.eqb_refl; reflexivity).
    destruct (dp a) eqn:D.
    - exists (ul ++ ue). split; [|auto]. cbn [ccheck cty]. rewrite L1, E1. unfold msg_eqb. rewrite Nat.eqb_refl, D. cbn [GenSize.is_known andb cresult_ty option_map]. rewrite D. cbn [GenSize.is_known option_map].
      rewrite Na. unfold msg_eqb. rewrite Nat.eqb_refl, As. reflexivity.
    - assert (Ew : wrap = false) by (generalize Hw; destruct wrap; [intros X; exfalso; exact (X a D)|reflexivity]).
      exists (ul ++ ue). split; [|auto]. cbn [ccheck cty]. rewrite L1, E1. cbn [cresult_ty]. unfold is_local. rewrite D, Ew. cbn [negb andb option_map]. rewrite As. reflexivity.
    - assert (A : ck (inner_c a G) (CSet l (CClone (CVar "vtpb"))) = Some (inner_c a G, ul ++ [List.length G])).
      { cbn [ccheck]. rewrite L2. cbn [cty qvar inner_c String.eqb Ascii.eqb Bool.eqb cresult_ty option_map]. rewrite As. reflexivity. }
      assert (B : ck (inner_c a G) (CSet l (CProto fn e)) = Some (inner_c a G, ul ++ ue)).
      { cbn [ccheck cty]. rewrite L2, E2, Na, As. reflexivity. }
      eexists. split.
      + cbn [ccheck] in A, B |- *. rewrite E1, Na. fold (inner_c a G). rewrite A, B, !close_same. cbn [app]. rewrite close_inner_c; [reflexivity| |left; reflexivity].
        right. apply in_or_app. left. apply below_in; [cbn; lia|]. apply in_or_app. right. left. reflexivity.
      + intros i I H. apply in_or_app. right. apply below_in; [exact I|]. right. apply in_or_app. right. apply below_in; [cbn; lia|exact H]. }
  assert (F : forall u, ck G (gen_single dp fn l e k) = Some (G, u) -> (forall i, (i < List.length G)%nat -> In i (ul ++ ue) -> In i u) ->
     cstep G (gen_single dp fn l e k) (ul ++ ue) /\ (k <> KBytes -> exists u, ck G (gen_single dp fn l e k) = Some (G, u))).
  { intros u U V. split; [|eauto]. exists G, u. split; [exact U|]. split; [apply close_same|exact V]. }
  unfold gen_single in *. destruct k as [| | | | | | | | |a|a| | | | | | |]; cbn [classify] in *; try (apply (F _ P); auto).
  - destruct (Q a eq_refl (N a (or_intror eq_refl))) as (u & U & V). apply (F _ U V).
  - destruct (Q a eq_refl (N a (or_introl eq_refl))) as (u & U & V). apply (F _ U V).
  - split; [|congruence]. set (G1 := ("tmpBytes", T YBytes) :: G) in *.
    assert (A1 : ck G (CDef "tmpBytes" (CMakeBytes e)) = Some (G1, ue)) by (cbn [ccheck cty]; rewrite E1; reflexivity).
    assert (A2 : ck G1 (CCopy (LVar "tmpBytes") e) = Some (G1, [] ++ ue ++ [List.length G])) by (cbn [ccheck]; rewrite E3; reflexivity).
    assert (A3 : ck G1 (CSet l (CVar "tmpBytes")) = Some (G1, ul ++ [List.length G])) by (cbn [ccheck]; rewrite L3; reflexivity).
    pose proof (cseq_ok _ _ _ _ _ _ _ A1 (cseq_ok _ _ _ _ _ _ _ A2 (cseq_ok _ _ _ _ _ _ _ A3 (eq_refl : ck G1 CSkip = Some (G1, []))))) as B.
    eexists _, _. split; [exact B|]. split.
    + apply close_one. apply in_or_app. right. apply in_or_app. left. cbn. apply in_or_app. right. left. reflexivity.
    + intros i I H. apply in_app_or in H. destruct H as [H|H]; apply in_or_app; [right|left; exact H].
      apply in_or_app. right. apply in_or_app. left. apply in_or_app. left. exact H.
Qed.

(** The methods. *)
Section Method.
Variable x : gtyp.
Definition CG : qctx := [("r", T x); ("m", T x)].

Lemma sel_m G f y : qvar "m" G = Some (0%nat, T x) -> csel sc dp wrap (T x) f = Some y -> cy G (CSel (CVar "m") f) = Some (T y, [0%nat]).
Proof. intros V S. cbn [cty]. rewrite V, S. reflexivity. Qed.
Lemma sel_r G f y : qvar "r" G = Some (1%nat, T x) -> csel sc dp wrap (T x) f = Some y -> lv G (LSel "r" f) = Some (y, [1%nat]).
Proof. intros V S. cbn [clval]. rewrite V, S. reflexivity. Qed.

Lemma rhs_ok f y s u G' : csel sc dp wrap (T x) f = Some y -> is_nilable y = true -> ck (("rhs", T y) :: CG) s = Some (G', u) ->
  qclose (("rhs", T y) :: CG) G' u = Some (below (("rhs", T y) :: CG) u) -> exists v, ck CG (CIfRhs (CSel (CVar "m") f) s) = Some (CG, v).
Proof.
  intros S Y B C. cbn [ccheck]. rewrite (sel_m CG f y eq_refl S). cbn [cnilable]. rewrite Y, B, C.
  rewrite close_one; [eexists; reflexivity|]. left. reflexivity.
Qed.

Definition GR (y : gtyp) : qctx := ("rhs", T y) :: CG.
(** The body of a loop. *)
Lemma range_ok fn y t key k : (y = YSlice (kind_ty k) /\ key = YInt /\ t = YSlice (kind_ty k)) \/ (y = YMap key (kind_ty k) /\ t = y /\ same key key = true) ->
  (forall a, k = KMessage a \/ k = KGroup a -> qnamed sc m fn = Some a) ->
  exists u, ck (("tmpContainer", T t) :: GR y) (CRange (CVar "rhs") (gen_single dp fn (LAt "tmpContainer") (CVar "v") k)) = Some (("tmpContainer", T t) :: GR y, u).
Proof.
  intros Y N. set (G := ("tmpContainer", T t) :: GR y). set (G1 := ("v", T (kind_ty k)) :: ("k", T key) :: G).
  destruct (single_step G1 fn (LAt "tmpContainer") (CVar "v") k [3%nat; 4%nat] [5%nat] N) as ((G' & u & U & C & V) & _).
  - unfold scopes. assert (Z : forall G0, qvar "tmpContainer" G0 = Some (3%nat, T t) -> qvar "k" G0 = Some (4%nat, T key) -> lv G0 (LAt "tmpContainer") = Some (kind_ty k, [3%nat; 4%nat])).
    { intros G0 Q1 Q2. cbn [clval]. rewrite Q1, Q2. destruct Y as [(-> & -> & ->)|(-> & -> & E)]; [reflexivity|]. rewrite E. reflexivity. }
    split; [|split; [intros a|]]; apply Z; reflexivity.
  - unfold scopes. split; [|split; [intros a|]]; reflexivity.
  - assert (X : exists w, (match match ccheck sc dp wrap pools m R G1 (gen_single dp fn (LAt "tmpContainer") (CVar "v") k) with
        | Some (G', v) => match qclose G1 G' v with Some w => Some (G1, [] ++ w) | None => None end | None => None end with
        | Some (G1', v) => match qclose G G1' v with Some w => Some (G, [2%nat] ++ w) | None => None end | None => None end) = Some (G, w)).
    { rewrite U, C. assert (Cl : forall u, In 4%nat u -> In 5%nat u -> qclose G G1 u = Some (below G u)) by (intros; apply close_two; [reflexivity|assumption|assumption]).
      rewrite Cl; [eexists; reflexivity| |]; (apply below_in; [cbn; lia|apply V; [cbn; lia|cbn; auto]]). }
    destruct X as (w & X). exists w. cbn [ccheck]. destruct Y as [(-> & -> & ->)|(-> & -> & E)]; exact X.
Qed.

Lemma ref_step fld f t0 : In fld (md_fields (md_of sc m)) -> f_ty fld = t0 -> csel sc dp wrap (T x) f = Some (field_ty t0) ->
  (match t0 with TField (LImplicit | LOneof) k => is_scalar k = false | _ => True end) ->
  exists u, ck CG (gen_ref dp (f_num fld) f t0) = Some (CG, u).
Proof.
  intros I T0 S Hr. pose proof (named_msg sc W m Hm fld I) as N. pose proof (named_ok sc W m Hm fld I) as N'. rewrite T0 in N, N'. unfold gen_ref.
  assert (Y : is_nilable (field_ty t0) = true).
  { destruct t0 as [[| | | |] k|kk vk]; cbn [field_ty]; try reflexivity; destruct k; try reflexivity; discriminate Hr. }
  set (G := GR (field_ty t0)).
  assert (B : exists G' u, ck G (match t0 with
     | TMap _ vk =>
         cblock [CDef "tmpContainer" (CMake (f_num fld) t0 (CVar "rhs"));
                 CRange (CVar "rhs") (gen_single dp (f_num fld) (LAt "tmpContainer") (CVar "v") vk);
                 CSet (LSel "r" f) (CVar "tmpContainer")]
     | TField (LRepeated _) k =>
         cblock [CDef "tmpContainer" (CMake (f_num fld) t0 (CVar "rhs"));
                 (if is_scalar k then CCopy (LVar "tmpContainer") (CVar "rhs")
                  else CRange (CVar "rhs") (gen_single dp (f_num fld) (LAt "tmpContainer") (CVar "v") k));
                 CSet (LSel "r" f) (CVar "tmpContainer")]
     | TField _ k =>
         if is_scalar k then cblock [CDef "tmpVal" (CStar (CVar "rhs")); CSet (LSel "r" f) (CAddr "tmpVal")]
         else gen_single dp (f_num fld) (LSel "r" f) (CVar "rhs") k
     end) = Some (G', u) /\ qclose G G' u = Some (below G u)); [|destruct B as (G' & u & B & C); eapply rhs_ok; eassumption].
  assert (Hold : forall y s c w, y = field_ty t0 -> cassignable sc (T y) (T y) = true -> cy G c = Some (T y, w) ->
     (exists u, ck (("tmpContainer", T y) :: G) s = Some (("tmpContainer", T y) :: G, u)) ->
     exists G' u, ck G (cblock [CDef "tmpContainer" c; s; CSet (LSel "r" f) (CVar "tmpContainer")]) = Some (G', u) /\ qclose G G' u = Some (below G u)).
  { intros y s c w Ey As Cc (u & U). set (G1 := ("tmpContainer", T y) :: G) in *.
    assert (A1 : ck G (CDef "tmpContainer" c) = Some (G1, w)) by (cbn [ccheck]; rewrite Cc; reflexivity).
    assert (A3 : ck G1 (CSet (LSel "r" f) (CVar "tmpContainer")) = Some (G1, [1%nat; 3%nat])).
    { cbn [ccheck]. rewrite (sel_r G1 f _ eq_refl S). cbn [cty qvar G1 String.eqb Ascii.eqb Bool.eqb]. rewrite <- Ey, As. reflexivity. }
    pose proof (cseq_ok _ _ _ _ _ _ _ A1 (cseq_ok _ _ _ _ _ _ _ U (cseq_ok _ _ _ _ _ _ _ A3 (eq_refl : ck G1 CSkip = Some (G1, []))))) as B.
    eexists _, _. split; [exact B|]. apply close_one. apply in_or_app. right. apply in_or_app. right. cbn. auto. }
  assert (Single : forall k, field_ty t0 = kind_ty k -> (forall a, k = KMessage a \/ k = KGroup a -> qnamed sc m (f_num fld) = Some a) ->
     exists G' u, ck G (gen_single dp (f_num fld) (LSel "r" f) (CVar "rhs") k) = Some (G', u) /\ qclose G G' u = Some (below G u)).
  { intros k Ek Nk. destruct (single_step G (f_num fld) (LSel "r" f) (CVar "rhs") k [1%nat] [2%nat] Nk) as ((G' & u & U & C & _) & _).
    - rewrite <- Ek. split; [|split; [intros a|]]; apply sel_r; auto.
    - rewrite <- Ek. split; [|split; [intros a|]]; reflexivity.
    - eauto. }
  assert (Val : forall k, field_ty t0 = YPtr (kind_ty k) -> exists G' u, ck G (cblock [CDef "tmpVal" (CStar (CVar "rhs")); CSet (LSel "r" f) (CAddr "tmpVal")]) = Some (G', u) /\ qclose G G' u = Some (below G u)).
  { intros k Ek. set (G1 := ("tmpVal", T (kind_ty k)) :: G).
    assert (A1 : ck G (CDef "tmpVal" (CStar (CVar "rhs"))) = Some (G1, [2%nat])) by (cbn [ccheck cty qvar G GR String.eqb Ascii.eqb Bool.eqb]; rewrite Ek; reflexivity).
    assert (A3 : ck G1 (CSet (LSel "r" f) (CAddr "tmpVal")) = Some (G1, [1%nat; 3%nat])).
    { cbn [ccheck]. rewrite (sel_r G1 f _ eq_refl S), Ek. cbn [cty qvar G1 String.eqb Ascii.eqb Bool.eqb].
      replace (cassignable sc (T (YPtr (kind_ty k))) (T (YPtr (kind_ty k)))) with true by (destruct k; cbn; unfold msg_eqb; rewrite ?Nat.eqb_refl; reflexivity). reflexivity. }
    pose proof (cseq_ok _ _ _ _ _ _ _ A1 (cseq_ok _ _ _ _ _ _ _ A3 (eq_refl : ck G1 CSkip = Some (G1, [])))) as B.
    eexists _, _. split; [exact B|]. apply close_one. cbn. auto. }
  destruct t0 as [lab k|kk vk].
  - destruct lab as [| | |b|]; try (destruct (is_scalar k) eqn:K; [try discriminate Hr; apply (Val k); destruct k; try reflexivity; discriminate K|apply (Single k); [destruct k; try reflexivity; discriminate K|exact N]]).
    eapply (Hold (YSlice (kind_ty k))); [reflexivity|cbn; apply same_kind| |].
    + cbn [cty qvar G GR field_ty String.eqb Ascii.eqb Bool.eqb has_len]. rewrite (elem_ok sc m) by auto. reflexivity.
    + destruct (is_scalar k).
      * cbn [ccheck clval cty qvar G GR field_ty String.eqb Ascii.eqb Bool.eqb]. rewrite same_kind. eexists. reflexivity.
      * apply (range_ok (f_num fld) (YSlice (kind_ty k)) (YSlice (kind_ty k)) YInt k); [left; auto|exact N].
  - eapply (Hold (YMap (kind_ty kk) (kind_ty vk))); [reflexivity|cbn; rewrite !same_kind; reflexivity| |].
    + cbn [cty qvar G GR field_ty String.eqb Ascii.eqb Bool.eqb has_len]. rewrite (elem_ok sc m) by auto. reflexivity.
    + apply (range_ok (f_num fld) _ _ (kind_ty kk) vk); [right; split; [reflexivity|split; [reflexivity|apply same_kind]]|exact N].
Qed.

(** A field copied in the first pass, and the member of a wrapper. *)
Lemma direct_step fld f lab k : In fld (md_fields (md_of sc m)) -> f_ty fld = TField lab k -> csel sc dp wrap (T x) f = Some (kind_ty k) -> k <> KBytes ->
  exists u, ck CG (gen_single dp (f_num fld) (LSel "r" f) (CSel (CVar "m") f) k) = Some (CG, u).
Proof.
  intros I T0 S Hk. pose proof (named_msg sc W m Hm fld I) as N. rewrite T0 in N.
  destruct (single_step CG (f_num fld) (LSel "r" f) (CSel (CVar "m") f) k [1%nat] [0%nat] N) as (_ & P).
  - split; [|split; [intros a|]]; apply sel_r; auto.
  - split; [|split; [intros a|]]; apply sel_m; auto.
  - exact (P Hk).
Qed.

Lemma ccase_nums_ok s l : ccase_nums (gen_clone_cases s l) = map f_num l.
Proof. induction l as [|f l IH]; [reflexivity|]. cbn. rewrite IH. reflexivity. Qed.
Lemma ccase_is s l : is_ccase (gen_clone_cases s l) = true.
Proof. destruct l; reflexivity. Qed.

Lemma ccases_step s l : wrap = true -> dp m = DKnown -> csel sc dp wrap (T x) (MSlot s) = Some (YOne m s) -> of_slot sc m s l ->
  exists u, ck (("c", T (YOne m s)) :: CG) (gen_clone_cases s l) = Some (("c", T (YOne m s)) :: CG, u) /\ (l <> [] -> In 2%nat u).
Proof.
  intros Ew K S. induction l as [|f l IH]; intros H.
  - exists []. split; [reflexivity|congruence].
  - destruct IH as (v & V & _); [intros g G; apply H; now right|]. destruct (H f (or_introl eq_refl)) as (I & O & E).
    pose proof (implements_ok sc W m Hm f I O) as M. rewrite E in M.
    assert (C : ck (("c", T (YPtr (YWrap m (f_num f)))) :: CG) (CSet (LSel "r" (MSlot s)) (CUncastIn (f_num f) (CClone (CCastIn (f_num f) (CVar "c"))))) = Some (("c", T (YPtr (YWrap m (f_num f)))) :: CG, [1%nat; 2%nat])).
    { cbn [ccheck]. rewrite (sel_r (("c", T (YPtr (YWrap m (f_num f)))) :: CG) (MSlot s) _ eq_refl S). cbn [cty qvar CG String.eqb Ascii.eqb Bool.eqb List.length]. rewrite Ew. unfold msg_eqb. rewrite Nat.eqb_refl, Z.eqb_refl. cbn [andb cresult_ty].
      rewrite K. cbn [GenSize.is_known option_map]. unfold msg_eqb. rewrite Nat.eqb_refl, Z.eqb_refl. cbn [andb cassignable]. unfold msg_eqb. rewrite Nat.eqb_refl, M. reflexivity. }
    cbn [gen_clone_cases]. cbn [ccheck] in C, V |- *. rewrite M, ccase_is. cbn [String.eqb Ascii.eqb Bool.eqb andb].
    rewrite C, V, close_same. eexists. split; [reflexivity|]. intros _. apply in_or_app. left. apply in_or_app. right. apply below_in; cbn; auto.
Qed.

Lemma coneof_step f : In f (md_fields (md_of sc m)) -> is_oneof f = true -> (wrap = true -> dp m = DKnown) -> csel sc dp wrap (T x) (MSlot (f_slot f)) = Some (YOne m (f_slot f)) ->
  exists u, ck CG (gen_clone_oneof (GenEqual.is_known dp m) (md_of sc m) (f_slot f)) = Some (CG, u).
Proof.
  intros I O Hk S. unfold gen_clone_oneof. pose proof (sel_m CG _ _ eq_refl S) as A.
  assert (B : exists v, ck CG (if GenEqual.is_known dp m
     then CSwitch (CSel (CVar "m") (MSlot (f_slot f))) (gen_clone_cases (f_slot f) (filter (fun f0 => is_oneof f0 && Nat.eqb (f_slot f0) (f_slot f)) (md_fields (md_of sc m))))
     else CSet (LSel "r" (MSlot (f_slot f))) (CClone (CIface (f_slot f) (CSel (CVar "m") (MSlot (f_slot f)))))) = Some (CG, v)).
  { unfold GenEqual.is_known. destruct (Bool.bool_dec wrap true) as [Ew|Ew]; [|apply not_true_is_false in Ew].
    - rewrite (Hk Ew). set (l := filter _ _).
      destruct (ccases_step (f_slot f) l) as (u & U & V).
      + exact Ew.
      + apply Hk, Ew.
      + exact S.
      + intros g G. apply filter_In in G. destruct G as [G E]. apply andb_prop in E. destruct E as [E F]. apply Nat.eqb_eq in F. auto.
      + assert (X : In f l) by (apply filter_In; split; [exact I|rewrite O, Nat.eqb_refl; reflexivity]).
        cbn [ccheck]. rewrite A, U, ccase_is, ccase_nums_ok.
        rewrite (distinct_ok l) by (apply pairwise_filter; pose proof (wf_m sc W m Hm) as M; unfold wf_msg in M; apply andb_prop in M; apply M).
        rewrite Nat.eqb_refl. cbn [andb]. rewrite close_one; [eexists; reflexivity|]. apply V. intros N. rewrite N in X. destruct X.
    - assert (D : dp m = DLocal) by (generalize Hw; rewrite ?Ew; auto). rewrite D. cbn [ccheck]. rewrite (sel_r CG _ _ eq_refl S). cbn [cty] in A |- *. rewrite A, Ew.
      unfold msg_eqb. rewrite !Nat.eqb_refl. cbn [andb negb cresult_ty option_map cassignable same]. unfold msg_eqb. rewrite !Nat.eqb_refl. eexists. reflexivity. }
  destruct B as (v & B). cbn [ccheck]. rewrite A, B, close_same. eexists. reflexivity.
Qed.

Lemma csteps_ok l s u : (forall y, In y l -> exists v, ck CG y = Some (CG, v)) -> ck CG s = Some (CG, u) -> exists v, ck CG (cblock (l ++ [s])) = Some (CG, v ++ u).
Proof.
  intros H S. induction l as [|y l IH].
  - exists []. cbn [app cblock ccheck]. rewrite S. cbn. rewrite app_nil_r. reflexivity.
  - destruct IH as (v & V); [intros z Z; apply H; now right|]. destruct (H y (or_introl eq_refl)) as (w & E). exists (w ++ v). cbn [app cblock ccheck]. rewrite E, V, app_assoc. reflexivity.
Qed.
Lemma creturns_last l e : creturns (cblock (l ++ [CRet e])) = true.
Proof.
  induction l as [|y l IH]; [reflexivity|]. cbn [app cblock creturns]. destruct (cblock (l ++ [CRet e])) eqn:B; try exact IH. destruct l; discriminate B.
Qed.

(** The frame of the methods: return for a nil receiver, the declaration of r, statements, return. *)
Lemma frame_ok nl nw l : cy [("m", T x)] nl = Some (T x, []) -> cy [("m", T x)] nw = Some (T x, []) -> is_nilable x = true -> cassignable sc (T x) R = true ->
  (forall y, In y l -> exists v, ck CG y = Some (CG, v)) ->
  ccompiles sc dp wrap pools m [("m", T x)] R (cblock (CIfNil (CVar "m") (CRet nl) :: CDef "r" nw :: l ++ [CRet (CVar "r")])) = true.
Proof.
  intros A B N As H. unfold ccompiles.
  assert (A1 : ck [("m", T x)] (CIfNil (CVar "m") (CRet nl)) = Some ([("m", T x)], [0%nat])).
  { cbn [ccheck cty qvar String.eqb Ascii.eqb Bool.eqb cnilable]. rewrite N. change (cty sc dp wrap pools m [("m", T x)] nl) with (cy [("m", T x)] nl). rewrite A, As, close_same. reflexivity. }
  assert (A2 : ck [("m", T x)] (CDef "r" nw) = Some (CG, [])) by (cbn [ccheck]; rewrite B; reflexivity).
  assert (A3 : ck CG (CRet (CVar "r")) = Some (CG, [1%nat])) by (cbn [ccheck cty qvar CG String.eqb Ascii.eqb Bool.eqb]; rewrite As; reflexivity).
  destruct (csteps_ok l _ _ H A3) as (v & V).
  pose proof (cseq_ok _ _ _ _ _ _ _ A1 (cseq_ok _ _ _ _ _ _ _ A2 V)) as C. cbn [cblock]. rewrite C.
  change (CSeq (CIfNil (CVar "m") (CRet nl)) (CSeq (CDef "r" nw) (cblock (l ++ [CRet (CVar "r")])))) with (cblock ((CIfNil (CVar "m") (CRet nl) :: CDef "r" nw :: l) ++ [CRet (CVar "r")])). rewrite creturns_last.
  assert (F : forall w, In 1%nat w -> qclose [] CG ([0%nat] ++ w) <> None).
  { intros w H1. unfold qclose, CG. cbn [List.length Nat.sub firstn map fst seq forallb]. rewrite !mem_ok; [discriminate|..]; cbn; auto. }
  destruct (qclose [] CG _) eqn:Z0; [reflexivity|]. exfalso. refine (F _ _ Z0). apply in_or_app. right. apply in_or_app. right. apply in_or_app. right. cbn. auto.
Qed.
End Method.

Lemma not_bytes k : is_scalar k = true -> k <> KBytes.
Proof. intros H E. subst k. discriminate H. Qed.

Lemma ref_sub l : forall seen f, In f (ref_fields dp seen l) -> In f l /\ (is_oneof f = false -> direct dp f = false).
Proof.
  induction l as [|g l IH]; intros seen f H; [destruct H|]. cbn [ref_fields] in H.
  destruct (is_oneof g) eqn:O; [destruct (existsb _ seen)|destruct (direct dp g) eqn:D].
  - destruct (IH _ _ H) as [A B]. split; [now right|exact B].
  - destruct H as [<-|H]; [split; [now left|congruence]|]. destruct (IH _ _ H) as [A B]. split; [now right|exact B].
  - destruct (IH _ _ H) as [A B]. split; [now right|exact B].
  - destruct H as [<-|H]; [split; [now left|auto]|]. destruct (IH _ _ H) as [A B]. split; [now right|exact B].
Qed.

Lemma clone_ok : R = T (own_ty wrap m) -> (wrap = true -> dp m = DKnown /\ md_keep (md_of sc m) = false) ->
  (md_pool (md_of sc m) = true -> pools m = true /\ wrap = false) ->
  ccompiles sc dp wrap pools m [("m", T (own_ty wrap m))] R (gen_clone dp m (md_of sc m)) = true.
Proof.
  intros HR Hk Hp. set (x := own_ty wrap m) in *.
  assert (Sl : forall s, csel sc dp wrap (T x) (MSlot s) = slot_ty sc m s) by (intros s; unfold x, own_ty; destruct wrap; reflexivity).
  unfold gen_clone. cbn [app]. rewrite !app_assoc. apply frame_ok.
  - reflexivity.
  - destruct (md_pool (md_of sc m)); [|reflexivity]. destruct (Hp eq_refl) as [P Ew]. cbn [cty]. rewrite P. unfold x. rewrite Ew. reflexivity.
  - reflexivity.
  - rewrite HR. unfold x, own_ty. destruct wrap; cbn; unfold msg_eqb; rewrite Nat.eqb_refl; reflexivity.
  - intros y Y. apply in_app_or in Y. destruct Y as [Y|Y]; [apply in_app_or in Y; destruct Y as [Y|Y]|].
    + apply in_map_iff in Y. destruct Y as (f & <- & Y). apply filter_In in Y. destruct Y as [I D]. apply andb_prop in D. destruct D as [O D]. apply negb_true_iff in O.
      pose proof (slot_ok sc W m Hm f I) as S. rewrite O in S. unfold gen_direct. unfold direct in D. destruct (f_ty f) as [lab k|kk vk] eqn:T0; [|discriminate D].
      apply (direct_step x f (MSlot (f_slot f)) lab k I T0).
      * rewrite Sl, S. f_equal. destruct lab; try discriminate D; destruct k; try reflexivity; discriminate D.
      * intros ->. destruct lab; discriminate D.
    + apply in_map_iff in Y. destruct Y as (f & <- & Y). destruct (ref_sub _ _ _ Y) as [I D]. unfold gen_clone_field.
      pose proof (slot_ok sc W m Hm f I) as S. destruct (is_oneof f) eqn:O.
      * apply coneof_step; [exact I|exact O|intros E; apply Hk, E|]. rewrite Sl. exact S.
      * apply (ref_step x f (MSlot (f_slot f)) (f_ty f) I eq_refl); [rewrite Sl; exact S|]. specialize (D eq_refl). unfold direct in D. unfold is_oneof in O.
        destruct (f_ty f) as [lab k|kk vk]; [|exact Logic.I]. destruct lab; try exact Logic.I; [|discriminate O].
        destruct k; try reflexivity; discriminate D.
    + destruct (md_keep (md_of sc m)) eqn:K; [|destruct Y]. destruct Y as [<-|[]].
      assert (Ew : wrap = false) by (generalize Hk; destruct wrap; [intros X; destruct (X eq_refl); congruence|reflexivity]).
      assert (D : dp m = DLocal) by (generalize Hw; rewrite Ew; auto).
      assert (U : csel sc dp wrap (T x) MUnknown = Some YBytes) by (unfold x, own_ty; rewrite Ew; cbn; unfold is_local; rewrite D; reflexivity).
      pose proof (sel_m x (CG x) _ _ eq_refl U) as A. pose proof (sel_r x (CG x) _ _ eq_refl U) as B.
      assert (A1 : ck (CG x) (CSet (LSel "r" MUnknown) (CMakeBytes (CSel (CVar "m") MUnknown))) = Some (CG x, [1%nat; 0%nat])).
      { cbn [ccheck]. rewrite B. cbn [cty] in A |- *. rewrite A. reflexivity. }
      assert (A2 : ck (CG x) (CCopy (LSel "r" MUnknown) (CSel (CVar "m") MUnknown)) = Some (CG x, [1%nat] ++ [0%nat] ++ [])).
      { cbn [ccheck]. rewrite B, A. reflexivity. }
      pose proof (cseq_ok _ _ _ _ _ _ _ A1 (cseq_ok _ _ _ _ _ _ _ A2 (eq_refl : ck (CG x) CSkip = Some (CG x, [])))) as B1.
      unfold cblock. cbn [ccheck] in B1 |- *. rewrite A. cbn [cty] in A, B1 |- *. rewrite B1. cbn [has_len YBytes]. rewrite close_same. eexists. reflexivity.
Qed.

(** CloneMessageVT. *)
Lemma clone_message_ok : R = TProto -> wrap = false -> ccompiles sc dp wrap pools m [("m", T (YPtr (YMsg m)))] R gen_clone_message = true.
Proof.
  intros HR Ew. assert (D : dp m = DLocal) by (generalize Hw; rewrite Ew; auto).
  unfold ccompiles, gen_clone_message. rewrite Ew, HR. cbn. unfold is_local. rewrite D. reflexivity.
Qed.

(** The method of a oneof wrapper. *)
Lemma clone_wrapper_ok f : In f (md_fields (md_of sc m)) -> is_oneof f = true -> (wrap = true -> dp m = DKnown) ->
  R = (if wrap then T (YPtr (YOwnWrap m (f_num f))) else T (YOne m (f_slot f))) ->
  ccompiles sc dp wrap pools m [("m", T (YPtr (if wrap then YOwnWrap m (f_num f) else YWrap m (f_num f))))] R (gen_clone_wrapper dp (GenEqual.is_known dp m) m f) = true.
Proof.
  intros I O Hk HR. pose proof (in_ok sc W m Hm f I O) as J. pose proof (implements_ok sc W m Hm f I O) as M.
  unfold gen_clone_wrapper. destruct (f_ty f) as [lab k|kk vk] eqn:T0; [|unfold is_oneof in O; rewrite T0 in O; discriminate O].
  assert (Ol : lab = LOneof) by (unfold is_oneof in O; rewrite T0 in O; destruct lab; try discriminate O; reflexivity). subst lab. cbn [field_ty] in J.
  set (x := YPtr (if wrap then YOwnWrap m (f_num f) else YWrap m (f_num f))).
  assert (Own : own_in sc wrap m (f_num f) = Some (T x)) by (unfold own_in; rewrite J; reflexivity).
  assert (S : csel sc dp wrap (T x) (MIn (f_num f)) = Some (kind_ty k)) by (unfold x; destruct wrap; cbn [csel]; rewrite Z.eqb_refl; exact J).
  match goal with |- context [cblock [?a; ?b; ?c; ?d]] => change (cblock [a; b; c; d]) with (cblock (a :: b :: [c] ++ [d])) end.
  apply frame_ok.
  - cbn [cty]. rewrite Own. reflexivity.
  - cbn [cty]. rewrite Own. reflexivity.
  - reflexivity.
  - rewrite HR. unfold x. destruct wrap; cbn; unfold msg_eqb; rewrite Nat.eqb_refl; [rewrite Z.eqb_refl; reflexivity|exact M].
  - intros y [<-|[]]. match goal with |- context [if ?b then _ else _] => destruct b eqn:B end.
    + apply (direct_step x f (MIn (f_num f)) LOneof k I T0 S). intros ->. discriminate B.
    + apply (ref_step x f (MIn (f_num f)) (TField LOneof k) I T0).
      * rewrite S. reflexivity.
      * destruct k; try reflexivity; discriminate B.
Qed.
End Clone.
