(** The printed EqualVT methods compute [EqualVT]. *)
From Coq Require Import ZArith List Bool Lia String.
From Coq Require Import Sorting.Permutation.
From Verif Require Import Base Schema Value Helpers Typing Unmarshal Equal EqualRel OrderFacts TargetFacts MarshalFacts
  GoSyntax GoSem GoEqual GenSize GenSizeFacts GenEqual.
Import ListNotations.
Open Scope string_scope.
Open Scope Z_scope.
Open Scope list_scope.

Lemma qleave_drop (Q E E' : qenv) : List.length E' = List.length E -> qleave E (QNext (Q ++ E')) = QNext E'.
Proof.
  intros H. cbn [qleave]. rewrite app_length, H.
  replace (List.length Q + List.length E - List.length E)%nat with (List.length Q) by lia.
  rewrite skipn_app, skipn_all, Nat.sub_diag. reflexivity.
Qed.
Lemma qleave_same (E : qenv) : qleave E (QNext E) = QNext E.
Proof. apply (qleave_drop []). reflexivity. Qed.

Lemma map_get_in l k y : map_get l k = Some y -> exists k', In (k', y) l.
Proof.
  induction l as [|[k' v] l IH]; cbn [map_get]; [discriminate|]. destruct (Unmarshal.key_eqb k k').
  - intros [= ->]. exists k'. now left.
  - intros H. destruct (IH H) as [k2 H2]. exists k2. now right.
Qed.

Section Run.
Variable sc : schema.
Variable dp : nat -> dispatch.
Variable same : list step -> list step -> bool.
Hypothesis W : wf_schema sc = true.
Hypothesis D : forall m, dp m <> DOther -> md_foreign (md_of sc m) = false.
Notation o := (fun p => same p p).

Lemma qselect_slot m f pos slots unk hid : In f (md_fields (md_of sc m)) -> is_oneof f = false ->
  qselect sc (QV (TMsg m) pos (VMsg slots unk hid)) (MSlot (f_slot f))
  = Some (QV (field_type (f_ty f)) (SField (f_slot f) :: pos) (slot slots (f_slot f))).
Proof.
  intros Hf No. cbn [qselect].
  destruct (find (fun f0 => Nat.eqb (f_slot f0) (f_slot f)) (md_fields (md_of sc m))) as [h|] eqn:Fd.
  - apply find_some in Fd as [Hh Es]. apply Nat.eqb_eq in Es.
    assert (h = f) as ->.
    { assert (forall x y : fdesc, {x = y} + {x <> y}) as De by (repeat decide equality).
      destruct (De h f) as [|Ne]; [assumption|].
      destruct (wf_compat sc m h f W Hh Hf Ne) as [_ Q]. destruct (Q Es) as [_ Q2]. congruence. }
    now rewrite No.
  - apply find_none with (x := f) in Fd; [|exact Hf]. now rewrite Nat.eqb_refl in Fd.
Qed.
Lemma qselect_oneof m f pos slots unk hid : In f (md_fields (md_of sc m)) -> is_oneof f = true ->
  qselect sc (QV (TMsg m) pos (VMsg slots unk hid)) (MSlot (f_slot f))
  = match slot slots (f_slot f) with
    | VOneof num x => Some (QV (TWrap m num) (SWrap (f_slot f) :: pos) (VOneof num x))
    | VNil => Some (QV TNone (SWrap (f_slot f) :: pos) VNil)
    | _ => None
    end.
Proof.
  intros Hf No. cbn [qselect].
  destruct (find (fun f0 => Nat.eqb (f_slot f0) (f_slot f)) (md_fields (md_of sc m))) as [h|] eqn:Fd.
  - apply find_some in Fd as [Hh Es]. apply Nat.eqb_eq in Es.
    assert (is_oneof h = true) as ->; [|reflexivity].
    assert (forall x y : fdesc, {x = y} + {x <> y}) as De by (repeat decide equality).
    destruct (De h f) as [->|Ne]; [assumption|].
    destruct (wf_compat sc m h f W Hh Hf Ne) as [_ Q]. now destruct (Q Es).
  - apply find_none with (x := f) in Fd; [|exact Hf]. now rewrite Nat.eqb_refl in Fd.
Qed.

Section Body.
Variable call : qval -> qval -> option bool.
Variable path : list step.
Variable rec : step -> nat -> val -> val -> bool.
Variable n : nat.
Hypothesis C : forall st m a b, wt_ptrmsg sc m a -> wt_ptrmsg sc m b -> (S (vdepth a) < n)%nat -> (S (vdepth b) < n)%nat ->
  md_foreign (md_of sc m) = false ->
  call (QV (TMsg m) (st :: path) a) (QV (TMsg m) (st :: path) b) = Some (rec st m a b).
Notation sm := (fun st => same (st :: path) (st :: path)).
Notation eval := (qeval sc same call).
Notation exec := (qexec sc same call).

(** A comparison goes on if the operands agree and returns false otherwise. *)
Definition verdict (b : bool) (E : qenv) : qout := if b then QNext E else QDone false.
Definition yields (E : qenv) (s : qstmt) (b : bool) : Prop := forall num, exec num s E = verdict b E.

Lemma fail_yields E c b : eval E c = Some (QBool (negb b)) -> yields E (fail_if c) b.
Proof. intros H num. unfold fail_if. cbn [qexec]. rewrite H. destruct b; cbn [negb qexec qeval qleave]; [apply qleave_same|reflexivity]. Qed.

Lemma exec_seq num a b E : exec num (QSeq a b) E = match exec num a E with QNext E' => exec num b E' | r => r end.
Proof. reflexivity. Qed.
Lemma exec_skip num E : exec num QSkip E = QNext E.
Proof. reflexivity. Qed.

(** Expressions evaluated in the blocks the code opens. *)
Definition steady (E : qenv) (e : qexp) (g : qval) : Prop :=
  eval E e = Some g /\ forall x y, eval (("ok", x) :: ("equal", y) :: E) e = Some g.

Lemma call_yields E fn l r m st a b :
  steady E l (QV (TMsg m) (st :: path) a) -> steady E r (QV (TMsg m) (st :: path) b) ->
  wt_ptrmsg sc m a -> wt_ptrmsg sc m b -> (S (vdepth a) < n)%nat -> (S (vdepth b) < n)%nat ->
  yields E (gen_call dp fn l r m) (Equal.call sc rec st m a b).
Proof.
  intros [L0 L1] [R0 R1] Ta Tb Da Db num. unfold gen_call, Equal.call. destruct (dp m) eqn:Dm.
  - assert (md_foreign (md_of sc m) = false) as F by (apply D; now rewrite Dm). rewrite F.
    apply fail_yields. cbn [qeval]. rewrite L0, R0, Nat.eqb_refl, C by assumption. reflexivity.
  - assert (md_foreign (md_of sc m) = false) as F by (apply D; now rewrite Dm). rewrite F.
    apply fail_yields. cbn [qeval]. rewrite L0, R0, C by assumption. reflexivity.
  - cbn [qexec]. rewrite L0. destruct (md_foreign (md_of sc m)) eqn:F.
    + rewrite (fail_yields _ _ (up_eq (sc_up sc) m a b)).
      * unfold verdict. destruct (up_eq (sc_up sc) m a b); [|reflexivity]. now apply (qleave_drop [_; _]).
      * cbn [qeval]. rewrite L1, R1. cbn [qproto]. rewrite Nat.eqb_refl. reflexivity.
    + rewrite (fail_yields _ _ (rec st m a b)).
      * unfold verdict. destruct (rec st m a b); [|reflexivity]. now apply (qleave_drop [_; _]).
      * cbn [qeval]. rewrite R1. cbn [qlookup String.eqb Ascii.eqb Bool.eqb]. rewrite C by assumption. reflexivity.
Qed.

Lemma denil_wt m v : wt_ptrmsg sc m v -> wt_ptrmsg sc m (denil sc m v).
Proof. exact (or_empty_wt sc W m v). Qed.
Lemma denil_depth m v : (S (S (vdepth v)) < n)%nat -> (S (vdepth (denil sc m v)) < n)%nat.
Proof. intros H. pose proof (new_depth (md_of sc m)). destruct v; cbn [denil]; lia. Qed.

Lemma new_run E x fn m pos v E' : eval E (XVar x) = Some (QV (TMsg m) pos v) ->
  qassign x (QV (TMsg m) pos (new_msg (md_of sc m))) E = Some E' -> List.length E' = List.length E ->
  wt_ptrmsg sc m v ->
  forall num, exec num (QIf (isnil (XVar x)) (QNew x fn m) QSkip) E = QNext (match v with VNil => E' | _ => E end).
Proof.
  intros H A L T num. cbn [qeval] in H. unfold isnil. cbn [qexec qeval]. rewrite H. cbn [qequals qbool].
  destruct T as [->|T].
  - cbn [is_nil]. rewrite Nat.eqb_refl, A. now apply (qleave_drop []).
  - destruct T. cbn [is_nil]. apply qleave_same.
Qed.

Lemma msg_yields E fn l r m st a b :
  eval E l = Some (QV (TMsg m) (st :: path) a) -> eval E r = Some (QV (TMsg m) (st :: path) b) ->
  wt_ptrmsg sc m a -> wt_ptrmsg sc m b -> (S (S (vdepth a)) < n)%nat -> (S (S (vdepth b)) < n)%nat ->
  yields E (gen_msg_eq dp fn l r m false) (compareCall sc sm rec st m false a b).
Proof.
  intros L R Ta Tb Da Db num. unfold gen_msg_eq, compareCall. cbn [qexec]. rewrite L, R.
  cbn [qeval]. cbn [qlookup String.eqb Ascii.eqb Bool.eqb qequals]. rewrite Nat.eqb_refl. cbn [option_map qbool].
  destruct (ptr_eqb (same (st :: path) (st :: path)) a b); cbn [negb]; [reflexivity|].
  cbn [qblock]. rewrite exec_seq.
  rewrite (new_run (("q", QV (TMsg m) (st :: path) b) :: ("p", QV (TMsg m) (st :: path) a) :: E) "p" fn m (st :: path) a
    (("q", QV (TMsg m) (st :: path) b) :: ("p", QV (TMsg m) (st :: path) (new_msg (md_of sc m))) :: E)) by (reflexivity || assumption).
  replace (match a with VNil => _ | _ => _ end)
    with (("q", QV (TMsg m) (st :: path) b) :: ("p", QV (TMsg m) (st :: path) (denil sc m a)) :: E) by (destruct a; reflexivity).
  rewrite exec_seq. rewrite (new_run _ "q" fn m (st :: path) b
    (("q", QV (TMsg m) (st :: path) (new_msg (md_of sc m))) :: ("p", QV (TMsg m) (st :: path) (denil sc m a)) :: E)) by (reflexivity || assumption).
  replace (match b with VNil => _ | _ => _ end)
    with (("q", QV (TMsg m) (st :: path) (denil sc m b)) :: ("p", QV (TMsg m) (st :: path) (denil sc m a)) :: E) by (destruct b; reflexivity).
  rewrite exec_seq. rewrite (call_yields _ fn (XVar "p") (XVar "q") m st (denil sc m a) (denil sc m b))
    by (auto using denil_wt, denil_depth || (split; reflexivity)).
  unfold verdict. destruct (Equal.call sc rec st m (denil sc m a) (denil sc m b)); [|reflexivity].
  now apply (qleave_drop [_; _]).
Qed.

Lemma num_equals k p q x y : is_num k = true ->
  qequals same (QV (TKind k) p (VInt x)) (QV (TKind k) q (VInt y)) = Some (num_eqb k x y).
Proof. intros H. destruct k; try discriminate H; reflexivity. Qed.

(** Operands that are not nullable: list elements, map values, members of wrappers, fields with
    implicit presence. *)
Lemma value_yields E fn l r k st a b :
  eval E l = Some (QV (kind_type k) (st :: path) a) -> eval E r = Some (QV (kind_type k) (st :: path) b) ->
  wt_elem sc k a -> wt_elem sc k b -> (S (S (vdepth a)) < n)%nat -> (S (S (vdepth b)) < n)%nat ->
  yields E (gen_kind_eq dp fn l r k false) (compareKind sc sm rec st k false a b).
Proof.
  intros L R Ta Tb Da Db. unfold gen_kind_eq, compareKind. destruct (is_num k) eqn:N.
  - destruct (wt_elem_num sc k a N Ta) as (x & -> & _). destruct (wt_elem_num sc k b N Tb) as (y & -> & _).
    assert (kind_type k = TKind k) as Kt by (destruct k; try discriminate N; reflexivity). rewrite Kt in *.
    assert (yields E (fail_if (XNe l r)) (num_eqb k x y)) as H.
    { apply fail_yields. cbn [qeval]. rewrite L, R, (num_equals k) by exact N. reflexivity. }
    destruct k; try discriminate N; exact H.
  - destruct k; try discriminate N; cbn [classify kind_type] in *.
    + destruct (wt_string sc a Ta) as (s & ->). destruct (wt_string sc b Tb) as (t & ->).
      apply fail_yields. cbn [qeval]. rewrite L, R. reflexivity.
    + apply msg_yields; auto; eapply wt_sub_ptr; eauto; reflexivity.
    + apply msg_yields; auto; eapply wt_sub_ptr; eauto; reflexivity.
    + apply fail_yields. cbn [qeval]. rewrite L, R.
      destruct (wt_byteslice sc a Ta) as [->|(s & ->)]; destruct (wt_byteslice sc b Tb) as [->|(t & ->)]; reflexivity.
Qed.

(** Nullable operands. *)
Lemma opt_yields E fn l r lbl k st a b : lbl = LOptional \/ lbl = LRequired ->
  steady E l (QV (field_type (TField lbl k)) (st :: path) a) -> steady E r (QV (field_type (TField lbl k)) (st :: path) b) ->
  (a = VNil \/ (exists x, a = VPtr x /\ (is_num k = true \/ k = KString) /\ wt_elem sc k x) \/ (is_num k = false /\ k <> KString /\ wt_elem sc k a)) ->
  (b = VNil \/ (exists x, b = VPtr x /\ (is_num k = true \/ k = KString) /\ wt_elem sc k x) \/ (is_num k = false /\ k <> KString /\ wt_elem sc k b)) ->
  (S (vdepth a) < n)%nat -> (S (vdepth b) < n)%nat ->
  yields E (gen_kind_eq dp fn l r k true) (compareKind sc sm rec st k true a b).
Proof.
  intros Lb L R Ta Tb Da Db. unfold gen_kind_eq, compareKind.
  destruct (sub_of k) as [m|] eqn:Sk.
  { assert (forall x, x = VNil \/ (exists y, x = VPtr y /\ (is_num k = true \/ k = KString) /\ wt_elem sc k y) \/ (is_num k = false /\ k <> KString /\ wt_elem sc k x) -> wt_ptrmsg sc m x) as PM.
    { intros x [->|[(y & _ & [N| ->] & _)|(_ & _ & T)]]; [now left|destruct k; discriminate|discriminate|]. exact (wt_sub_ptr sc k m x Sk T). }
    apply PM in Ta. apply PM in Tb.
    destruct k; try discriminate Sk; injection Sk as ->; cbn [classify gen_msg_eq compareCall]; cbn [gen_msg_eq];
      (apply call_yields; auto; destruct Lb as [->| ->]; assumption). }
  destruct L as [L _]. destruct R as [R _].
  assert (is_num k = true \/ k = KString \/ k = KBytes) as K by (destruct k; try discriminate Sk; auto).
  destruct K as [N|K].
  - assert (field_type (TField lbl k) = TPtr k) as Ft by (destruct Lb as [->| ->]; destruct k; try discriminate N; reflexivity).
    rewrite Ft in *. intros num.
    replace (match classify k with CByt => gen_bytes_eq l r true | CMsg m | CGrp m => gen_msg_eq dp fn l r m true | _ => gen_scalar_eq l r true end)
      with (gen_scalar_eq l r true) by (destruct k; try discriminate N; reflexivity).
    replace (match classify k with CByt => compareBytes true a b | CMsg m | CGrp m => compareCall sc sm rec st m true a b | _ => compareScalar k true a b end)
      with (compareScalar k true a b) by (destruct k; try discriminate N; reflexivity).
    unfold gen_scalar_eq, isnil, notnil. cbn [qexec]. rewrite L, R. cbn [qeval]. cbn [qlookup String.eqb Ascii.eqb Bool.eqb qequals].
    destruct Ta as [->|[(x & -> & _ & Tx)|(N' & _)]]; [| |congruence];
      (destruct Tb as [->|[(y & -> & _ & Ty)|(N' & _)]]; [| |congruence]); cbn [is_nil qbool option_map negb qload]; try reflexivity.
    destruct (wt_elem_num sc k x N Tx) as (z & -> & _). destruct (wt_elem_num sc k y N Ty) as (z' & -> & _).
    rewrite (num_equals k) by exact N. cbn [option_map qbool].
    assert (compareScalar k true (VPtr (VInt z)) (VPtr (VInt z')) = num_eqb k z z') as ->.
    { unfold compareScalar, scalar_eqb. cbn [is_nil negb andb orb deref]. rewrite negb_involutive. destruct k; try discriminate N; reflexivity. }
    destruct (num_eqb k z z'); reflexivity.
  - destruct K as [->| ->]; cbn [classify]; intros num.
    + assert (field_type (TField lbl KString) = TPtr KString) as Ft by (destruct Lb as [->| ->]; reflexivity). rewrite Ft in *.
      unfold gen_scalar_eq, isnil, notnil. cbn [qexec]. rewrite L, R. cbn [qeval]. cbn [qlookup String.eqb Ascii.eqb Bool.eqb qequals].
      destruct Ta as [->|[(x & -> & _ & Tx)|(_ & N' & _)]]; [| |congruence];
        (destruct Tb as [->|[(y & -> & _ & Ty)|(_ & N' & _)]]; [| |congruence]); cbn [is_nil qbool option_map negb qload]; try reflexivity.
      destruct (wt_string sc x Tx) as (s & ->). destruct (wt_string sc y Ty) as (t & ->). cbn [qequals option_map qbool].
      assert (compareScalar KString true (VPtr (VStr s)) (VPtr (VStr t)) = str_eqb s t) as ->.
      { unfold compareScalar, scalar_eqb. cbn [is_nil negb andb orb deref classify vbytes]. apply negb_involutive. }
      destruct (str_eqb s t); reflexivity.
    + assert (field_type (TField lbl KBytes) = TKind KBytes) as Ft by (destruct Lb as [->| ->]; reflexivity). rewrite Ft in *.
      unfold gen_bytes_eq, isnil, notnil. cbn [qexec]. rewrite L, R. cbn [qeval]. cbn [qlookup String.eqb Ascii.eqb Bool.eqb qequals].
      assert (forall v, v = VNil \/ (exists x, v = VPtr x /\ (is_num KBytes = true \/ KBytes = KString) /\ wt_elem sc KBytes x) \/ (is_num KBytes = false /\ KBytes <> KString /\ wt_elem sc KBytes v) -> v = VNil \/ exists s, v = VBytes s) as BY.
      { intros v [->|[(x & _ & [?|?] & _)|(_ & _ & T)]]; [now left|discriminate|discriminate|]. exact (wt_byteslice sc v T). }
      apply BY in Ta. apply BY in Tb.
      destruct Ta as [->|(s & ->)]; destruct Tb as [->|(t & ->)]; try reflexivity.
      cbn [is_nil qbool option_map negb qstring qequals]. unfold compareBytes. cbn [is_nil negb andb orb vbytes]. rewrite negb_involutive.
      destruct (str_eqb s t); reflexivity.
Qed.

(** Loops. *)
Lemma loop_all {A} (body : qenv -> qout) (F : A -> qval * qval) (f : A -> bool) l E :
  (forall x, In x l -> qleave E (body (("vx", snd (F x)) :: ("i", fst (F x)) :: E)) = verdict (f x) E) ->
  qloop body (map F l) E = verdict (forallb f l) E.
Proof.
  induction l as [|x l IH]; intros H; [reflexivity|]. cbn [map qloop forallb].
  pose proof (H x (or_introl eq_refl)) as Hx. destruct (F x) as [p q]. cbn [fst snd] in Hx. rewrite Hx.
  destruct (f x); cbn [verdict andb]; [|reflexivity]. apply IH. intros y Hy. apply H. now right.
Qed.

Lemma loop_list (body : qenv -> qout) s k E l :
  forall pre l', List.length l = List.length l' ->
  (forall i x y, nth_error (pre ++ l') i = Some y -> In x l ->  In y l' ->
     qleave E (body (("vx", QV (kind_type k) (SElem s i :: path) x) :: ("i", QInt (Z.of_nat i)) :: E))
     = verdict (compareKind sc sm rec (SElem s i) k false x y) E) ->
  qloop body (elems k (SField s :: path) (List.length pre) l) E
  = verdict (equal_list sc sm rec s k (List.length pre) l l') E.
Proof.
  induction l as [|x l IH]; intros pre [|y l'] Hl H; try discriminate; [reflexivity|].
  injection Hl as Hl. cbn [elems qloop equal_list elem_pos].
  rewrite (H (List.length pre) x y) by (cbn; auto; rewrite nth_error_app2, Nat.sub_diag by lia; reflexivity).
  destruct (compareKind sc sm rec (SElem s (List.length pre)) k false x y); cbn [verdict andb]; [|reflexivity].
  assert (S (List.length pre) = List.length (pre ++ [y])) as -> by (rewrite app_length; cbn; lia).
  apply IH; [assumption|]. intros i x' y' Hi Hx Hy. rewrite <- app_assoc in Hi. apply H; [exact Hi|now right|now right].
Qed.

Lemma seq_yields E a b x y : yields E a x -> (x = true -> yields E b y) -> yields E (QSeq a b) (x && y).
Proof. intros A B num. cbn [qexec]. rewrite A. destruct x; cbn [verdict andb]; [now apply B|reflexivity]. Qed.

(** The members of the two messages. *)
Lemma field_yields m f s u h s' u' h' :
  In f (md_fields (md_of sc m)) -> is_oneof f = false ->
  wt_field sc (md_of sc m) f (slot s (f_slot f)) -> wt_field sc (md_of sc m) f (slot s' (f_slot f)) ->
  (S (vdepth (slot s (f_slot f))) < n)%nat -> (S (vdepth (slot s' (f_slot f))) < n)%nat ->
  yields [("that", QV (TMsg m) path (VMsg s' u' h')); ("this", QV (TMsg m) path (VMsg s u h))]
    (gen_field_eq dp f) (equal_field sc sm rec f (slot s (f_slot f)) (slot s' (f_slot f))).
Proof.
  intros Hf O Ta Tb Da Db.
  pose proof (qselect_slot m f path s u h Hf O) as SA. pose proof (qselect_slot m f path s' u' h' Hf O) as SB.
  pose proof (wf_ty sc m f W Hf) as WT. apply wt_field_inv in Ta. apply wt_field_inv in Tb.
  set (a := slot s (f_slot f)) in *. set (b := slot s' (f_slot f)) in *.
  set (E := [("that", QV (TMsg m) path (VMsg s' u' h')); ("this", QV (TMsg m) path (VMsg s u h))]).
  set (l := XSel (XVar "this") (MSlot (f_slot f))). set (r := XSel (XVar "that") (MSlot (f_slot f))).
  assert (forall Q, (forall x, In x Q -> fst x <> "this" /\ fst x <> "that") ->
    eval (Q ++ E) l = Some (QV (field_type (f_ty f)) (SField (f_slot f) :: path) a) /\
    eval (Q ++ E) r = Some (QV (field_type (f_ty f)) (SField (f_slot f) :: path) b)) as EV.
  { intros Q HQ. unfold l, r. cbn [qeval].
    assert (qlookup "this" (Q ++ E) = qlookup "this" E /\ qlookup "that" (Q ++ E) = qlookup "that" E) as [-> ->].
    { induction Q as [|[x g] Q IH]; [auto|]. cbn [app qlookup]. destruct (HQ (x, g) (or_introl eq_refl)) as [N1 N2]. cbn [fst] in N1, N2.
      assert (("this" =? x)%string = false) as -> by (apply String.eqb_neq; congruence).
      assert (("that" =? x)%string = false) as -> by (apply String.eqb_neq; congruence). apply IH. intros y Hy. apply HQ. now right. }
    unfold E. cbn [qlookup String.eqb Ascii.eqb Bool.eqb]. auto. }
  assert (steady E l (QV (field_type (f_ty f)) (SField (f_slot f) :: path) a)) as SL.
  { split; [apply (EV []); intros ? []|]. intros x y. apply (EV [("ok", x); ("equal", y)]). cbn [In]. intros z [<-|[<-|[]]]; split; discriminate. }
  assert (steady E r (QV (field_type (f_ty f)) (SField (f_slot f) :: path) b)) as SR.
  { split; [apply (EV []); intros ? []|]. intros x y. apply (EV [("ok", x); ("equal", y)]). cbn [In]. intros z [<-|[<-|[]]]; split; discriminate. }
  unfold gen_field_eq, equal_field. fold l r. destruct (f_ty f) as [lbl k|kk vk] eqn:Ty.
  - destruct lbl as [| | |pk|]; [| | | |unfold is_oneof in O; rewrite Ty in O; discriminate].
    + assert (sub_of k = None) as Sk by (cbn in WT; apply andb_true_iff in WT as [_ WT]; destruct (sub_of k); [discriminate|reflexivity]).
      replace (match classify k with CMsg _ | CGrp _ => true | _ => false end) with false by (destruct k; try discriminate; reflexivity).
      assert (nullable_of f = false) as -> by (unfold nullable_of; rewrite Ty; destruct k; try discriminate; reflexivity).
      cbn [field_type] in *.
      assert (vdepth a = 0%nat /\ vdepth b = 0%nat) as [Za Zb] by (split; [inversion Ta|inversion Tb]; subst; try reflexivity; congruence).
      (* the depth does not matter: no calls *)
      clear Da Db. intros num. unfold gen_kind_eq, compareKind. destruct SL as [L _]. destruct SR as [R _].
      destruct (is_num k) eqn:N.
      * destruct (wt_elem_num sc k a N Ta) as (x & Ea & _). destruct (wt_elem_num sc k b N Tb) as (y & Eb & _). rewrite Ea, Eb in *.
        assert (kind_type k = TKind k) as Kt by (destruct k; try discriminate N; reflexivity). rewrite Kt in *.
        assert (yields E (fail_if (XNe l r)) (num_eqb k x y)) as H.
        { apply fail_yields. cbn [qeval]. rewrite L, R, (num_equals k) by exact N. reflexivity. }
        destruct k; try discriminate N; exact (H num).
      * destruct k; try discriminate N; try discriminate Sk; cbn [classify kind_type] in *.
        -- destruct (wt_string sc a Ta) as (t & Ea). destruct (wt_string sc b Tb) as (t' & Eb). rewrite Ea, Eb in *.
           apply fail_yields. cbn [qeval]. rewrite L, R. reflexivity.
        -- apply fail_yields. cbn [qeval]. rewrite L, R.
           destruct (wt_byteslice sc a Ta) as [Ea|(t & Ea)]; destruct (wt_byteslice sc b Tb) as [Eb|(t' & Eb)]; rewrite Ea, Eb; reflexivity.
    + assert (nullable_of f = true) as -> by (unfold nullable_of; rewrite Ty; destruct k; reflexivity).
      replace (match classify k with CMsg _ | CGrp _ => true | _ => true end) with true by (destruct k; reflexivity).
      eapply opt_yields; eauto.
    + assert (nullable_of f = true) as -> by (unfold nullable_of; rewrite Ty; destruct k; reflexivity).
      replace (match classify k with CMsg _ | CGrp _ => true | _ => true end) with true by (destruct k; reflexivity).
      eapply opt_yields; eauto.
    + cbn [field_type] in *. destruct SL as [L _]. destruct SR as [R _].
      assert (forall v, v = VNil \/ (exists l, v = VList l /\ forall x, In x l -> wt_elem sc k x) ->
        forall pos, qlen (QV (TSlice k) pos v) = Some (QInt (zlen (vlist v))) /\ qitems (QV (TSlice k) pos v) = Some (elems k pos 0 (vlist v))) as LN
        by (intros v [->|(xs & -> & _)]; split; reflexivity).
      apply seq_yields.
      { apply fail_yields. cbn [qeval]. rewrite L, R, (proj1 (LN a Ta _)), (proj1 (LN b Tb _)). reflexivity. }
      intros Hl num. apply zlen_eqb in Hl. cbn [qexec]. rewrite L, (proj2 (LN a Ta _)).
      apply (loop_list _ (f_slot f) k E (vlist a) [] (vlist b) Hl). cbn [app].
      intros i x y Hi Hx Hy.
      assert (wt_elem sc k x /\ (S (S (vdepth x)) < n)%nat) as [Tx Dx].
      { destruct Ta as [Ea|(xs & Ea & T)]; rewrite Ea in *; [destruct Hx|]. cbn [vlist] in Hx. pose proof (depth_list x xs Hx). split; [auto|lia]. }
      assert (exists ys, b = VList ys /\ vlist b = ys /\ wt_elem sc k y /\ (S (S (vdepth y)) < n)%nat) as (ys & Eb & Ev & Ty' & Dy).
      { destruct Tb as [Eb|(ys & Eb & T)]; rewrite Eb in *; [destruct Hy|]. cbn [vlist] in Hy. pose proof (depth_list y ys Hy). exists ys. repeat split; [auto|lia]. }
      set (E2 := ("vx", QV (kind_type k) (SElem (f_slot f) i :: path) x) :: ("i", QInt (Z.of_nat i)) :: E).
      cbn [qblock qexec]. assert (eval E2 r = Some (QV (TSlice k) (SField (f_slot f) :: path) b)) as R2.
      { apply (EV [_; _]). cbn [In]. intros z [<-|[<-|[]]]; split; discriminate. }
      rewrite R2. change (qlookup "i" E2) with (Some (QInt (Z.of_nat i))). cbn iota.
      rewrite Eb. cbn [qindex]. destruct (Z.ltb_spec (Z.of_nat i) 0); [lia|]. rewrite Nat2Z.id. rewrite Ev in Hi. rewrite Hi. cbn [elem_pos].
      rewrite (value_yields (("vy", QV (kind_type k) (SElem (f_slot f) i :: path) y) :: E2) (f_num f) (XVar "vx") (XVar "vy") k (SElem (f_slot f) i) x y) by (reflexivity || assumption).
      unfold verdict. destruct (compareKind sc sm rec (SElem (f_slot f) i) k false x y); [|reflexivity].
      now apply (qleave_drop [_; _; _]).
  - cbn [field_type] in *. destruct SL as [L _]. destruct SR as [R _].
    assert (forall v, v = VNil \/ (exists l, v = VMap l /\ (forall e, In e l -> wt_elem sc kk (fst e)) /\ (forall e, In e l -> wt_elem sc vk (snd e)) /\ NoDup (map fst l)) ->
      forall s, qlen (QV (TMapOf kk vk) (SField s :: path) v) = Some (QInt (zlen (vmap v))) /\
      qitems (QV (TMapOf kk vk) (SField s :: path) v) = Some (map (fun e => (QV (kind_type kk) [] (fst e), QV (kind_type vk) (SKey s (fst e) :: path) (snd e))) (vmap v))) as LN
      by (intros v [->|(xs & -> & _)]; split; reflexivity).
    apply seq_yields.
    { apply fail_yields. cbn [qeval]. rewrite L, R, (proj1 (LN a Ta _)), (proj1 (LN b Tb _)). reflexivity. }
    intros _ num. cbn [qexec]. rewrite L, (proj2 (LN a Ta _)). unfold equal_map.
    apply (loop_all _ (fun e => (QV (kind_type kk) [] (fst e), QV (kind_type vk) (SKey (f_slot f) (fst e) :: path) (snd e)))).
    intros e He. cbn [fst snd].
    assert (wt_elem sc kk (fst e) /\ wt_elem sc vk (snd e) /\ (S (S (vdepth (snd e))) < n)%nat) as (Tk & Tx & Dx).
    { destruct Ta as [Ea|(xs & Ea & T1 & T2 & _)]; rewrite Ea in *; [destruct He|]. cbn [vmap] in He. pose proof (depth_map e xs He). split; [auto|]. split; [auto|lia]. }
    assert (exists kk', kind_type kk = TKind kk') as [kk' Kt].
    { cbn in WT. apply andb_true_iff in WT as [WT _]. apply andb_true_iff in WT as [KK _]. destruct kk; try discriminate KK; eexists; reflexivity. }
    rewrite Kt. set (E2 := ("vx", QV (kind_type vk) (SKey (f_slot f) (fst e) :: path) (snd e)) :: ("i", QV (TKind kk') [] (fst e)) :: E).
    cbn [qblock qexec]. assert (eval E2 r = Some (QV (TMapOf kk vk) (SField (f_slot f) :: path) b)) as R2.
    { apply (EV [_; _]). cbn [In]. intros z [<-|[<-|[]]]; split; discriminate. }
    rewrite R2. change (qlookup "i" E2) with (Some (QV (TKind kk') [] (fst e))). cbn iota.
    assert (qentry (QV (TMapOf kk vk) (SField (f_slot f) :: path) b) (QV (TKind kk') [] (fst e))
      = Some (match map_get (vmap b) (fst e) with Some y => Some (QV (kind_type vk) (SKey (f_slot f) (fst e) :: path) y) | None => None end)) as ->.
    { destruct Tb as [Eb|(ys & Eb & _)]; rewrite Eb; cbn [qentry vmap map_get entry_pos]; [reflexivity|]. destruct (map_get ys (fst e)); reflexivity. }
    destruct (map_get (vmap b) (fst e)) as [y|] eqn:Mg; [|reflexivity].
    assert (wt_elem sc vk y /\ (S (S (vdepth y)) < n)%nat) as [Ty' Dy].
    { assert (exists k', In (k', y) (vmap b)) as [k' Hy].
      { exact (map_get_in _ _ _ Mg). }
      destruct Tb as [Eb|(ys & Eb & T1 & T2 & _)]; rewrite Eb in *; [destruct Hy|]. cbn [vmap] in Hy. pose proof (depth_map (k', y) ys Hy) as Dm.
      split; [exact (T2 (k', y) Hy)|]. cbn [snd] in Dm. lia. }
    set (E3 := ("ok", QBool true) :: ("vy", QV (kind_type vk) (SKey (f_slot f) (fst e) :: path) y) :: E2).
    rewrite (fail_yields E3 (XNot (XVar "ok")) true) by reflexivity. cbn [verdict].
    rewrite (value_yields E3 (f_num f) (XVar "vx") (XVar "vy") vk (SKey (f_slot f) (fst e)) (snd e) y) by (reflexivity || assumption).
    unfold verdict. destruct (compareKind sc sm rec (SKey (f_slot f) (fst e)) vk false (snd e) y); [|reflexivity].
    now apply (qleave_drop [_; _; _; _]).
Qed.

(** The method of a wrapper, called with any other wrapper of the oneof. *)
Lemma wrapper_run m f k s x num' y (known : bool) :
  In f (md_fields (md_of sc m)) -> f_ty f = TField LOneof k -> wt_elem sc k x -> (S (S (vdepth x)) < n)%nat ->
  (num' = f_num f -> wt_elem sc k y) -> (S (S (vdepth y)) < n)%nat ->
  qresult (exec 0 (gen_wrapper_eq dp known f)
    [("thatIface", QV (TWrap m num') (SWrap s :: path) (VOneof num' y));
     ("this", (if known then QC m (f_num f) else QV (TWrap m (f_num f))) (SWrap s :: path) (VOneof (f_num f) x))])
  = Some (if f_num f =? num' then
            if same (SWrap s :: path) (SWrap s :: path) && val_eqb (VOneof (f_num f) x) (VOneof num' y) then true
            else compareKind sc sm rec (SField s) k false x y
          else false).
Proof.
  intros Hf Ty Tx Dx Ty' Dy. unfold gen_wrapper_eq. rewrite Ty.
  set (num := f_num f) in *.
  assert (find_field num (md_fields (md_of sc m)) = Some f) as FF by (apply (find_member sc W); assumption).
  rewrite (Z.eqb_sym num num').
  assert (num' =? num = true -> wt_elem sc k y) as Tyy by (intros H; apply Ty'; now apply Z.eqb_eq in H).
  assert (num' =? num = true -> num' = num) as NN by (apply Z.eqb_eq). clear Ty'.
  destruct known; cbn [qblock qexec qeval]; cbn [qlookup String.eqb Ascii.eqb Bool.eqb].
  - cbn [negb qbool]. cbn [qexec]. cbn [qlookup String.eqb Ascii.eqb Bool.eqb].
    destruct (num' =? num) eqn:En; [|reflexivity]. rewrite (NN eq_refl) in *. specialize (Tyy eq_refl). clear NN.
    cbn [qexec]. cbn [qlookup String.eqb Ascii.eqb Bool.eqb]. rewrite ?Z.eqb_refl. cbn [qassign String.eqb Ascii.eqb Bool.eqb].
    cbn [qleave List.length Nat.sub skipn].
    cbn [qeval qlookup String.eqb Ascii.eqb Bool.eqb qequals]. rewrite Nat.eqb_refl, Z.eqb_refl. cbn [andb qbool ptr_eqb].
    destruct (same (SWrap s :: path) (SWrap s :: path) && val_eqb (VOneof num x) (VOneof num y)); [reflexivity|].
    cbn [qexec qleave List.length Nat.sub skipn].
    rewrite (fail_yields _ _ true) by reflexivity. cbn [verdict].
    match goal with |- context [exec 0 (gen_kind_eq _ _ _ _ _ _) ?E] =>
      rewrite (value_yields E num (XSel (XVar "this") (MIn num)) (XSel (XVar "that") (MIn num)) k (SField s) x y) end; auto.
    + unfold verdict. destruct (compareKind sc sm rec (SField s) k false x y); reflexivity.
    + cbn [qeval qlookup String.eqb Ascii.eqb Bool.eqb qselect]. rewrite Z.eqb_refl, FF, Ty. reflexivity.
    + cbn [qeval qlookup String.eqb Ascii.eqb Bool.eqb qselect]. rewrite Z.eqb_refl, FF, Ty. reflexivity.
  - rewrite Nat.eqb_refl. cbn [andb]. destruct (num' =? num) eqn:En; [|reflexivity]. rewrite (NN eq_refl) in *. specialize (Tyy eq_refl). clear NN.
    cbn [qeval]. cbn [qlookup String.eqb Ascii.eqb Bool.eqb negb qexec qleave List.length Nat.sub skipn].
    cbn [qeval qlookup String.eqb Ascii.eqb Bool.eqb qequals]. rewrite Nat.eqb_refl, Z.eqb_refl. cbn [andb qbool ptr_eqb].
    destruct (same (SWrap s :: path) (SWrap s :: path) && val_eqb (VOneof num x) (VOneof num y)); [reflexivity|].
    cbn [qexec qleave List.length Nat.sub skipn].
    rewrite (fail_yields _ _ true) by reflexivity. cbn [verdict].
    match goal with |- context [exec 0 (gen_kind_eq _ _ _ _ _ _) ?E] =>
      rewrite (value_yields E num (XSel (XVar "this") (MIn num)) (XSel (XVar "that") (MIn num)) k (SField s) x y) end; auto.
    + unfold verdict. destruct (compareKind sc sm rec (SField s) k false x y); reflexivity.
    + cbn [qeval qlookup String.eqb Ascii.eqb Bool.eqb qselect]. rewrite Z.eqb_refl, FF, Ty. reflexivity.
    + cbn [qeval qlookup String.eqb Ascii.eqb Bool.eqb qselect]. rewrite Z.eqb_refl, FF, Ty. reflexivity.
Qed.

(** The cases of a type switch: one call, that of the wrapper's own method. *)
Lemma cases_yields E s m num x pos that (r : bool) l f :
  qlookup "c" E = Some (QV (TWrap m num) pos (VOneof num x)) ->
  eval E (XSel (XVar "that") (MSlot s)) = Some that ->
  call (QC m num pos (VOneof num x)) that = Some r -> In f l -> f_num f = num ->
  exec num (gen_cases s l) E = verdict r E.
Proof.
  intros L T R. induction l as [|g l IH]; intros Hf Nf; [destruct Hf|]. cbn [gen_cases qexec].
  destruct (f_num g =? num) eqn:Ng.
  - apply Z.eqb_eq in Ng. apply fail_yields. cbn [qeval]. rewrite L. cbn [qeval] in T. rewrite Ng, Z.eqb_refl, T, R. reflexivity.
  - apply IH; [|assumption]. destruct Hf as [->|Hf]; [|assumption]. apply Z.eqb_neq in Ng. contradiction.
Qed.

(** A oneof. *)
Lemma oneof_yields m f s u h s' u' h' (known : bool) :
  (forall num x num' y, slot s (f_slot f) = VOneof num x -> slot s' (f_slot f) = VOneof num' y ->
     call ((if known then QC m num else QV (TWrap m num)) (SWrap (f_slot f) :: path) (VOneof num x))
          (QV (TWrap m num') (SWrap (f_slot f) :: path) (VOneof num' y))
     = Some (equal_oneof sc sm rec (md_of sc m) (f_slot f) (VOneof num x) (VOneof num' y))) ->
  In f (md_fields (md_of sc m)) -> is_oneof f = true ->
  wt_field sc (md_of sc m) f (slot s (f_slot f)) -> wt_field sc (md_of sc m) f (slot s' (f_slot f)) ->
  yields [("that", QV (TMsg m) path (VMsg s' u' h')); ("this", QV (TMsg m) path (VMsg s u h))]
    (gen_oneof_eq known (md_of sc m) (f_slot f))
    (equal_oneof sc sm rec (md_of sc m) (f_slot f) (slot s (f_slot f)) (slot s' (f_slot f))).
Proof.
  intros CW Hf O Ta Tb num0.
  pose proof (qselect_oneof m f path s u h Hf O) as SA. pose proof (qselect_oneof m f path s' u' h' Hf O) as SB.
  apply wt_field_inv in Ta. apply wt_field_inv in Tb. pose proof O as O'. unfold is_oneof in O'.
  destruct (f_ty f) as [[| | |q|] k|] eqn:Ty; try discriminate O'. clear O'.
  unfold gen_oneof_eq, isnil, notnil. cbn [qexec qeval]. cbn [qlookup String.eqb Ascii.eqb Bool.eqb]. rewrite SA, SB.
  destruct Ta as [Ea|(g & kg & x & Ea & Hg & Sg & Tg & Tx)]; destruct Tb as [Eb|(g' & kg' & y & Eb & Hg' & Sg' & Tg' & Ty')];
    rewrite Ea, Eb; cbn [qequals qbool is_nil option_map negb qexec qeval]; try reflexivity.
  - unfold fail_if. cbn [qexec qeval]. cbn [qlookup String.eqb Ascii.eqb Bool.eqb]. rewrite SB, Eb. reflexivity.
  -
    set (E := [("that", QV (TMsg m) path (VMsg s' u' h')); ("this", QV (TMsg m) path (VMsg s u h))]).
    assert (qselect sc (QV (TMsg m) path (VMsg s' u' h')) (MSlot (f_slot f)) = Some (QV (TWrap m (f_num g')) (SWrap (f_slot f) :: path) (VOneof (f_num g') y))) as SB' by (rewrite SB, Eb; reflexivity).
    assert (qselect sc (QV (TMsg m) path (VMsg s u h)) (MSlot (f_slot f)) = Some (QV (TWrap m (f_num g)) (SWrap (f_slot f) :: path) (VOneof (f_num g) x))) as SA' by (rewrite SA, Ea; reflexivity).
    rewrite (fail_yields E _ true) by (unfold E; cbn [qeval qlookup String.eqb Ascii.eqb Bool.eqb]; rewrite SB'; reflexivity). cbn [verdict].
    specialize (CW _ _ _ _ Ea Eb). rewrite <- Ea, <- Eb in CW |- *.
    set (res := equal_oneof sc sm rec (md_of sc m) (f_slot f) (slot s (f_slot f)) (slot s' (f_slot f))) in *.
    assert (exec num0 (if known
       then QSwitch (XSel (XVar "this") (MSlot (f_slot f))) (gen_cases (f_slot f) (filter (fun f0 => is_oneof f0 && Nat.eqb (f_slot f0) (f_slot f)) (md_fields (md_of sc m))))
       else fail_if (XNot (XEqual (XIface (f_slot f) (XSel (XVar "this") (MSlot (f_slot f)))) (XSel (XVar "that") (MSlot (f_slot f)))))) E = verdict res E) as R.
    { destruct known.
      - unfold E; cbn [qexec qeval]; cbn [qlookup String.eqb Ascii.eqb Bool.eqb]. rewrite SA'. fold E.
        rewrite (cases_yields (("c", QV (TWrap m (f_num g)) (SWrap (f_slot f) :: path) (VOneof (f_num g) x)) :: E) (f_slot f) m (f_num g) x (SWrap (f_slot f) :: path)
          (QV (TWrap m (f_num g')) (SWrap (f_slot f) :: path) (VOneof (f_num g') y)) res _ g).
        + unfold verdict. destruct res; [|reflexivity]. now apply (qleave_drop [_]).
        + reflexivity.
        + unfold E; cbn [qeval qlookup String.eqb Ascii.eqb Bool.eqb]. exact SB'.
        + rewrite <- Ea, <- Eb. exact CW.
        + apply filter_In. split; [assumption|]. unfold is_oneof. rewrite Tg, Sg, Nat.eqb_refl. reflexivity.
        + reflexivity.
      - apply fail_yields. unfold E; cbn [qeval qlookup String.eqb Ascii.eqb Bool.eqb]. rewrite SA', SB'. rewrite <- Ea, <- Eb, CW. reflexivity. }
    rewrite R. unfold verdict. destruct res; reflexivity.
Qed.
Lemma map_yields {A} E (g : A -> qstmt) (f : A -> bool) l rest num : (forall x, In x l -> yields E (g x) (f x)) ->
  exec num (qblock (map g l ++ rest)) E = if forallb f l then exec num (qblock rest) E else QDone false.
Proof.
  induction l as [|x l IH]; intros H; [reflexivity|]. cbn [map app qblock forallb]. rewrite exec_seq, (H x (or_introl eq_refl)).
  destruct (f x); cbn [verdict andb]; [|reflexivity]. apply IH. intros y Hy. apply H. now right.
Qed.
End Body.

(** The printed method computes [equal_msg]. *)
Theorem run_equal n : forall path m a b, (S (vdepth a) < n)%nat -> (S (vdepth b) < n)%nat ->
  wt_ptrmsg sc m a -> wt_ptrmsg sc m b -> md_foreign (md_of sc m) = false ->
  run_EqualVT dp sc same n (QV (TMsg m) path a) (QV (TMsg m) path b) = Some (equal_msg sc o n path m a b).
Proof.
  induction n as [|n IH]; intros path m a b Da Db Ta Tb F; [lia|]. cbn [run_EqualVT equal_msg]. rewrite F.
  match goal with |- qresult (qexec sc same ?c _ _ _) = _ => set (call := c) end.
  set (rec := fun st => equal_msg sc o n (st :: path)).
  assert (forall st m a b, wt_ptrmsg sc m a -> wt_ptrmsg sc m b -> (S (vdepth a) < n)%nat -> (S (vdepth b) < n)%nat ->
    md_foreign (md_of sc m) = false ->
    run_EqualVT dp sc same n (QV (TMsg m) (st :: path) a) (QV (TMsg m) (st :: path) b) = Some (rec st m a b)) as C0.
  { intros. unfold rec. now apply IH. }
  assert (forall st m a b, wt_ptrmsg sc m a -> wt_ptrmsg sc m b -> (S (vdepth a) < n)%nat -> (S (vdepth b) < n)%nat ->
    md_foreign (md_of sc m) = false ->
    call (QV (TMsg m) (st :: path) a) (QV (TMsg m) (st :: path) b) = Some (rec st m a b)) as C1 by exact C0.
  unfold gen_equal. cbn [app qblock]. rewrite exec_seq. cbn [qexec qeval]. cbn [qlookup String.eqb Ascii.eqb Bool.eqb qequals].
  rewrite Nat.eqb_refl. cbn [qbool]. unfold equal_body.
  destruct (ptr_eqb (same path path) a b) eqn:Pe; [reflexivity|].
  destruct Ta as [->|Ta]; [destruct b; reflexivity|]. destruct Ta as [m s u h Ls Fs Bu].
  destruct Tb as [->|Tb]; [reflexivity|]. destruct Tb as [m s' u' h' Ls' Fs' Bu'].
  unfold isnil. cbn [qexec qeval]. cbn [qlookup String.eqb Ascii.eqb Bool.eqb qequals qbool is_nil].
  set (E := [("that", QV (TMsg m) path (VMsg s' u' h')); ("this", QV (TMsg m) path (VMsg s u h))]).
  rewrite !qleave_same.
  set (fs := md_fields (md_of sc m)) in *.
  assert (forall i, (S (vdepth (slot s i)) < n)%nat) as Ds by (intros i; pose proof (depth_slot s i u h); lia).
  assert (forall i, (S (vdepth (slot s' i)) < n)%nat) as Ds' by (intros i; pose proof (depth_slot s' i u' h'); lia).
  match goal with |- ?l = _ => cut (l = Some (
    forallb (fun i => equal_oneof sc (fun st => same (st :: path) (st :: path)) rec (md_of sc m) i (slot s i) (slot s' i)) (oneof_slots [] (sort_fields fs))
    && forallb (fun f => equal_field sc (fun st => same (st :: path) (st :: path)) rec f (slot s (f_slot f)) (slot s' (f_slot f)))
         (filter (fun f => negb (is_oneof f)) (sort_fields fs))
    && (if md_keep (md_of sc m) then str_eqb u u' else true))) end.
  { intros ->. reflexivity. }
  rewrite (map_yields call E (gen_oneof_eq (is_known dp m) (md_of sc m))
    (fun i => equal_oneof sc (fun st => same (st :: path) (st :: path)) rec (md_of sc m) i (slot s i) (slot s' i))).
  2:{ intros i Hi. apply oneof_slots_in in Hi as (_ & f & Hf & O & <-). apply (Permutation_in f (sort_perm fs)) in Hf.
      apply oneof_yields; auto. intros num x num' y Ea Eb.
      pose proof (Fs f Hf) as Ta. pose proof (Fs' f Hf) as Tb. pose proof (Ds (f_slot f)) as Da'. pose proof (Ds' (f_slot f)) as Db'.
      rewrite Ea in Ta, Da'. rewrite Eb in Tb, Db'. apply wt_field_inv in Ta. apply wt_field_inv in Tb. cbn [vdepth] in Da', Db'.
      unfold is_oneof in O. destruct (f_ty f) as [[| | |q|] k|] eqn:Ty; try discriminate O.
      destruct Ta as [?|(g & kg & x0 & Ex & Hg & Sg & Tg & Tx)]; [discriminate|]. injection Ex as -> ->.
      destruct Tb as [?|(g' & kg' & y0 & Ey & Hg' & Sg' & Tg' & Ty')]; [discriminate|]. injection Ey as -> ->.
      assert (find_field (f_num g) (md_fields (md_of sc m)) = Some g) as FF by (apply (find_member sc W); assumption).
      assert (call ((if is_known dp m then QC m (f_num g) else QV (TWrap m (f_num g))) (SWrap (f_slot f) :: path) (VOneof (f_num g) x0))
          (QV (TWrap m (f_num g')) (SWrap (f_slot f) :: path) (VOneof (f_num g') y0))
        = qresult (qexec sc same (run_EqualVT dp sc same n) 0 (gen_wrapper_eq dp (is_known dp m) g)
            [("thatIface", QV (TWrap m (f_num g')) (SWrap (f_slot f) :: path) (VOneof (f_num g') y0));
             ("this", (if is_known dp m then QC m (f_num g) else QV (TWrap m (f_num g))) (SWrap (f_slot f) :: path) (VOneof (f_num g) x0))])) as ->.
      { unfold call. destruct (is_known dp m) eqn:Km; cbn match; rewrite Km, FF; reflexivity. }
      rewrite (wrapper_run (run_EqualVT dp sc same n) path rec n C0 m g kg (f_slot f) x0 (f_num g') y0); auto; try lia.
      - cbn [equal_oneof]. destruct (f_num g =? f_num g'); [|reflexivity].
        destruct (same (SWrap (f_slot f) :: path) (SWrap (f_slot f) :: path) && val_eqb (VOneof (f_num g) x0) (VOneof (f_num g') y0)); [reflexivity|].
        rewrite FF, Tg. reflexivity.
      - intros En. assert (g = g') as <- by (eapply wf_num_inj; eauto). rewrite Tg in Tg'. injection Tg' as <-. assumption. }
  match goal with |- context [if forallb ?f ?l then _ else QDone false] => destruct (forallb f l) eqn:B1 end.
  2:{ reflexivity. }
  rewrite (map_yields call E (gen_field_eq dp)
    (fun f => equal_field sc (fun st => same (st :: path) (st :: path)) rec f (slot s (f_slot f)) (slot s' (f_slot f)))).
  2:{ intros f Hf. apply filter_In in Hf as [Hf O]. apply negb_true_iff in O. apply (Permutation_in f (sort_perm fs)) in Hf.
      apply (field_yields call path rec n C1); auto. }
  cbn [andb].
  match goal with |- context [if forallb ?f ?l then _ else QDone false] => destruct (forallb f l) eqn:B2 end.
  2:{ reflexivity. }
  cbn [andb qblock qexec]. destruct (md_keep (md_of sc m)); reflexivity.
Qed.

(** What run_EqualVT decides does not depend on how much fuel there is beyond the depth. *)
Corollary run_EqualVT_ok n m a b : (S (Nat.max (vdepth a) (vdepth b)) < n)%nat ->
  wt_ptrmsg sc m a -> wt_ptrmsg sc m b -> md_foreign (md_of sc m) = false ->
  run_EqualVT dp sc same n (QV (TMsg m) [] a) (QV (TMsg m) [] b) = Some (EqualVT sc o m a b).
Proof.
  intros L Ta Tb F. rewrite run_equal by (auto; lia). f_equal. apply Bool.eq_true_iff_eq. unfold EqualVT.
  rewrite (equal_msg_iff sc o W n) by (auto; lia). rewrite (equal_msg_iff sc o W _) by (auto; lia). reflexivity.
Qed.
End Run.
