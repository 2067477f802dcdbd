(** The printed SizeVT methods compute [SizeVT]. *)
From Coq Require Import ZArith List Bool Lia String.
From Verif Require Import Base Schema Value Helpers Size Typing VarintFacts SimFacts MarshalTop
  GoSyntax GoSem GenSize.
Import ListNotations.
Open Scope string_scope.
Open Scope Z_scope.

(** Bound on a Go int. *)
Definition imax : Z := 9223372036854775808.

Lemma int_id z : 0 <= z < imax -> s64 z = z.
Proof.
  unfold imax, s64. intros H. rewrite Z.mod_small by lia.
  destruct (Z.ltb_spec z 9223372036854775808); lia.
Qed.
Lemma word_id z : 0 <= z < imax -> u64 z = z.
Proof. unfold imax, u64. intros H. apply Z.mod_small. lia. Qed.

Lemma sov_pos z : 0 <= SizeOfVarint z.
Proof.
  unfold SizeOfVarint. apply Z.div_pos; [|lia]. unfold Len64.
  destruct (Z.leb_spec (Z.lor z 1) 0); [lia|]. pose proof (Z.log2_nonneg (Z.lor z 1)). lia.
Qed.
Lemma soz_pos z : 0 <= SizeOfZigzag z.
Proof. apply sov_pos. Qed.
Lemma loop_pos n x s : 0 <= s -> 0 <= key_size_loop n x s.
Proof.
  revert x s. induction n as [|n IH]; intros x s H; cbn [key_size_loop]; [lia|].
  destruct (127 <? x); [apply IH; lia|lia].
Qed.
Lemma key_pos num wt : 0 <= KeySize num wt.
Proof. unfold KeySize. pose proof (loop_pos 5 (Z.lor (u32 (Z.shiftl (u32 num) 3)) (u32 wt)) 0). lia. Qed.
Lemma loop_small n x s : key_size_loop n x s <= s + Z.of_nat n.
Proof.
  revert x s. induction n as [|n IH]; intros x s; cbn [key_size_loop]; [lia|].
  destruct (127 <? x); [|lia]. specialize (IH (Z.shiftr x 7) (s + 1)). lia.
Qed.
Lemma key_small num wt : KeySize num wt <= 6.
Proof. unfold KeySize. pose proof (loop_small 5 (Z.lor (u32 (Z.shiftl (u32 num) 3)) (u32 wt)) 0). lia. Qed.
Lemma zlen_pos {A} (l : list A) : 0 <= zlen l.
Proof. unfold zlen. lia. Qed.

Lemma fold_from {A} (f : A -> Z) l a :
  fold_left (fun n e => n + f e) l a = a + sum_over f l.
Proof.
  unfold sum_over. revert a. induction l as [|x l IH]; intros a; cbn [fold_left]; [lia|].
  rewrite (IH (a + f x)), (IH (0 + f x)). lia.
Qed.
Lemma sum_nil {A} (f : A -> Z) : sum_over f [] = 0. Proof. reflexivity. Qed.
Lemma sum_cons {A} (f : A -> Z) x l : sum_over f (x :: l) = f x + sum_over f l.
Proof. unfold sum_over at 1. cbn [fold_left]. rewrite fold_from. lia. Qed.
Lemma sum_pos {A} (f : A -> Z) l : (forall x, In x l -> 0 <= f x) -> 0 <= sum_over f l.
Proof.
  induction l as [|x l IH]; intros H; [rewrite sum_nil; lia|]. rewrite sum_cons.
  pose proof (H x (or_introl eq_refl)). pose proof (IH (fun y Hy => H y (or_intror Hy))). lia.
Qed.

(** Running a loop that adds [f x] to [n]. *)
Lemma loop_sum {A} (body : env -> out) k v (F : A -> gval * gval) (f : A -> Z) g l :
  forall l0 a, 0 <= a -> (forall x, In x l -> 0 <= f x) -> a + sum_over f l < imax ->
  (forall x l0 a, In x l -> 0 <= a -> a + f x < imax ->
     exists l1, leave [("l", GInt l0); ("n", GInt a); ("m", g)]
       (body ((v, snd (F x)) :: (k, fst (F x)) :: [("l", GInt l0); ("n", GInt a); ("m", g)]))
     = Next [("l", GInt l1); ("n", GInt (a + f x)); ("m", g)]) ->
  exists l1, loop body k v (map F l) [("l", GInt l0); ("n", GInt a); ("m", g)]
    = Next [("l", GInt l1); ("n", GInt (a + sum_over f l)); ("m", g)].
Proof.
  induction l as [|x l IH]; intros l0 a P N B H.
  - exists l0. cbn [map loop]. rewrite sum_nil, Z.add_0_r. reflexivity.
  - rewrite sum_cons in *. cbn [map loop]. destruct (F x) as [p q] eqn:Fx.
    assert (0 <= sum_over f l) as S0 by (apply sum_pos; intros; apply N; now right).
    pose proof (N x (or_introl eq_refl)).
    destruct (H x l0 a (or_introl eq_refl) P) as [l1 E]; [lia|]. rewrite Fx in E.
    cbn [fst snd] in E. rewrite E.
    destruct (IH l1 (a + f x)) as [l2 E2]; [lia|intros; apply N; now right|lia| |].
    + intros y l3 b Hy. apply H. now right.
    + exists l2. rewrite E2, Z.add_assoc. reflexivity.
Qed.

(** Running a loop that adds [f x] to [l]. *)
Lemma loop_len {A} (body : env -> out) k v (F : A -> gval * gval) (f : A -> Z) g n l :
  forall a, 0 <= a -> (forall x, In x l -> 0 <= f x) -> a + sum_over f l < imax ->
  (forall x a, In x l -> 0 <= a -> a + f x < imax ->
     leave [("l", GInt a); ("n", GInt n); ("m", g)]
       (body ((v, snd (F x)) :: (k, fst (F x)) :: [("l", GInt a); ("n", GInt n); ("m", g)]))
     = Next [("l", GInt (a + f x)); ("n", GInt n); ("m", g)]) ->
  loop body k v (map F l) [("l", GInt a); ("n", GInt n); ("m", g)]
    = Next [("l", GInt (a + sum_over f l)); ("n", GInt n); ("m", g)].
Proof.
  induction l as [|x l IH]; intros a P N B H.
  - cbn [map loop]. rewrite sum_nil, Z.add_0_r. reflexivity.
  - rewrite sum_cons in *. cbn [map loop]. destruct (F x) as [p q] eqn:Fx.
    assert (0 <= sum_over f l) as S0 by (apply sum_pos; intros; apply N; now right).
    pose proof (N x (or_introl eq_refl)).
    pose proof (H x a (or_introl eq_refl) P ltac:(lia)) as E. rewrite Fx in E.
    cbn [fst snd] in E. rewrite E.
    rewrite (IH (a + f x)); [now rewrite Z.add_assoc|lia|intros; apply N; now right|lia|].
    intros y b Hy. apply H. now right.
Qed.

(** The end of a block forgets what the block declared. *)
Lemma leave_drop (Q P P' : env) : List.length P' = List.length P -> leave P (Next (Q ++ P')%list) = Next P'.
Proof.
  intros H. cbn [leave]. rewrite app_length, H.
  replace (List.length Q + List.length P - List.length P)%nat with (List.length Q) by lia.
  rewrite skipn_app, skipn_all, Nat.sub_diag. reflexivity.
Qed.

Section Run.
Variable sc : schema.
Variable dp : nat -> dispatch.
Hypothesis W : wf_schema sc = true.
(** Well-known and local types have helpers. *)
Hypothesis D : forall m, dp m <> DOther -> md_foreign (md_of sc m) = false.
Hypothesis U : forall m v, md_foreign (md_of sc m) = true -> 0 <= up_size (sc_up sc) m v.

Section Body.
Variable call : gval -> string -> option gval.
Variable rec : nat -> val -> Z.
Variable depth : nat.
Hypothesis C : forall m v, wt_ptrmsg sc m v -> (vdepth v < depth)%nat ->
  md_foreign (md_of sc m) = false ->
  0 <= rec m v /\ (rec m v < imax -> call (GV (TMsg m) v) "SizeVT" = Some (GInt (rec m v))).

Lemma messageSize_pos m v : wt_ptrmsg sc m v -> (vdepth v < depth)%nat -> 0 <= messageSize sc rec m v.
Proof.
  intros T L. unfold messageSize. destruct (md_foreign (md_of sc m)) eqn:F; [now apply U|].
  now apply C.
Qed.

Local Opaque s64 u64 SizeOfVarint SizeOfZigzag Z.add Z.mul Z.ltb zlen select KeySize imax up_size.

(** The environments of a method: possibly some variables of inner blocks, then
    these. *)
Definition base (l n : Z) (g : gval) : env := [("l", GInt l); ("n", GInt n); ("m", g)].

Lemma messageSize_run (e : expr) m v (P : env) l n g x :
  (forall Q, Q = [] \/ Q = [("ok", GBool true); ("size", GV (TMsg m) v)]
             \/ Q = [("ok", GBool false); ("size", GNil)] ->
     eval sc call (Q ++ P ++ base l n g)%list e = Some (GV (TMsg m) v)) ->
  (forall y, assign "l" (GInt y) (P ++ base l n g)%list = Some (P ++ base y n g)%list) ->
  wt_ptrmsg sc m v -> (vdepth v < depth)%nat -> messageSize sc rec m v < imax ->
  exec sc call x (gen_messageSize dp e m) (P ++ base l n g)%list
  = Next (P ++ base (messageSize sc rec m v) n g)%list.
Proof.
  intros E A T L B. pose proof (E [] (or_introl eq_refl)) as E0. cbn [app] in E0.
  unfold gen_messageSize, messageSize in *. destruct (dp m) eqn:Dm.
  - assert (md_foreign (md_of sc m) = false) as F by (apply D; now rewrite Dm). rewrite F in *.
    cbn [exec eval]. rewrite E0, Nat.eqb_refl.
    destruct (C m v T L F) as [_ R]. rewrite (R B), A. reflexivity.
  - assert (md_foreign (md_of sc m) = false) as F by (apply D; now rewrite Dm). rewrite F in *.
    cbn [exec eval]. rewrite E0. destruct (C m v T L F) as [_ R]. rewrite (R B), A. reflexivity.
  - cbn [exec]. rewrite E0. cbn [has_helpers]. destruct (md_foreign (md_of sc m)) eqn:F; cbn [negb].
    + pose proof (E _ (or_intror (or_intror eq_refl))) as E2. cbn [app] in E2.
      cbn [exec eval]. rewrite E2. cbn. rewrite A.
      apply (leave_drop [("ok", GBool false); ("size", GNil)]). now rewrite !app_length.
    + cbn [exec eval]. cbn. destruct (C m v T L F) as [_ R]. rewrite (R B), A.
      apply (leave_drop [("ok", GBool true); ("size", GV (TMsg m) v)]). now rewrite !app_length.
Qed.

(** [m.F] evaluates to [r] wherever the receiver is visible. *)
Definition field_expr (mem : member) : expr := ESel (EVar "m") mem.

Ltac small := repeat match goal with
  | |- context [s64 ?z] => rewrite (int_id z) by lia
  | |- context [u64 ?z] => rewrite (word_id z) by lia
  end.
Ltac facts := repeat match goal with
  | |- context [SizeOfVarint ?z] =>
      lazymatch goal with H : 0 <= SizeOfVarint z |- _ => fail | _ => pose proof (sov_pos z) end
  | |- context [SizeOfZigzag ?z] =>
      lazymatch goal with H : 0 <= SizeOfZigzag z |- _ => fail | _ => pose proof (soz_pos z) end
  | H0 : context [SizeOfVarint ?z] |- _ =>
      lazymatch goal with H : 0 <= SizeOfVarint z |- _ => fail | _ => pose proof (sov_pos z) end
  | H0 : context [SizeOfZigzag ?z] |- _ =>
      lazymatch goal with H : 0 <= SizeOfZigzag z |- _ => fail | _ => pose proof (soz_pos z) end
  | |- context [@zlen ?A ?l] =>
      lazymatch goal with H : 0 <= @zlen A l |- _ => fail | _ => pose proof (@zlen_pos A l) end
  end.

Lemma wt_sub_ptr k m v : sub_of k = Some m -> wt_elem sc k v -> wt_ptrmsg sc m v.
Proof.
  intros E H. inversion H as [? z R|? Q|? Q| |k' m' E'|k' m' v' E' M]; subst;
    try (destruct k; discriminate E || discriminate R); try discriminate E.
  - now left.
  - rewrite E in E'. injection E' as <-. now right.
Qed.

Lemma value_pos key k v : 0 <= key -> wt_elem sc k v -> (vdepth v < depth)%nat ->
  0 <= value_size sc rec key k v.
Proof.
  intros K T L. unfold value_size. facts.
  destruct k; cbn [classify]; try (facts; lia).
  - pose proof (messageSize_pos m v (wt_sub_ptr (KGroup m) m v eq_refl T) L). lia.
  - pose proof (messageSize_pos m v (wt_sub_ptr (KMessage m) m v eq_refl T) L). facts. lia.
Qed.

Lemma wt_string v : wt_elem sc KString v -> exists s, v = VStr s.
Proof.
  intros H. inversion H as [? z R|? Q|? Q| |k' m' E'|k' m' v' E' M]; subst; try discriminate; eauto.
Qed.
Lemma wt_byteslice v : wt_elem sc KBytes v -> v = VNil \/ exists s, v = VBytes s.
Proof.
  intros H. inversion H as [? z R|? Q|? Q| |k' m' E'|k' m' v' E' M]; subst; try discriminate; eauto.
Qed.

Ltac inv_elem T x :=
  lazymatch type of T with
  | wt_elem _ KString _ => destruct (wt_string x T) as (?s & ->)
  | wt_elem _ KBytes _ => destruct (wt_byteslice x T) as [->|(?s & ->)]
  | wt_elem _ (KMessage _) _ => idtac
  | wt_elem _ (KGroup _) _ => idtac
  | wt_elem _ ?k _ => destruct (wt_elem_num sc k x eq_refl T) as (?z & -> & _)
  end.

(** A singular field that is set: the [nullable] and oneof shapes. *)
Lemma value_run mem key k sh v x l a g t :
  select sc g mem = Some (GV t v) ->
  (sh = ShOneof /\ t = kind_type k /\ v = x /\ has_message k = false)
  \/ (sh = ShNullable /\ ((is_num k = true \/ k = KString) /\ t = TPtr k /\ v = VPtr x
                          \/ (is_num k = false /\ k <> KString) /\ t = kind_type k /\ v = x)) ->
  wt_elem sc k x -> (vdepth x < depth)%nat ->
  0 <= key -> 0 <= a -> a + value_size sc rec key k x < imax ->
  exists l1, exec sc call 0 (gen_scalar dp (field_expr mem) key k sh) (base l a g)
             = Next (base l1 (a + value_size sc rec key k x) g).
Proof.
  intros S Sh T L K A B. pose proof (value_pos key k x K T L) as VP.
  unfold gen_scalar, value_size, field_expr, key_l, sov, soz in *.
  destruct k; cbn [classify is_num kind_type has_message] in *; inv_elem T x;
    cbn [vint vbytes] in *; change (zlen (@nil Z)) with 0 in *.
  all: destruct Sh as [(-> & -> & -> & Hm) | (-> & [(Hn & -> & ->) | (Hn & -> & ->)])];
    try discriminate Hm; try (destruct Hn as [Hn Hs]; (discriminate Hn || now elim Hs));
    try (destruct Hn as [Hn|Hn]; discriminate Hn).
  all: try (cbn; rewrite ?S; cbn; facts; small; eexists; reflexivity).
  - pose proof (messageSize_pos m x (wt_sub_ptr (KGroup m) m x eq_refl T) L) as MP.
    cbn [block exec]. rewrite (messageSize_run _ m x [] l a g 0).
    + cbn. small. eexists. reflexivity.
    + intros Q [->|[->| ->]]; cbn; now rewrite S.
    + intros y. reflexivity.
    + exact (wt_sub_ptr (KGroup m) m x eq_refl T).
    + exact L.
    + lia.
  - pose proof (messageSize_pos m x (wt_sub_ptr (KMessage m) m x eq_refl T) L) as MP.
    pose proof (sov_pos (messageSize sc rec m x)).
    cbn [block exec]. rewrite (messageSize_run _ m x [] l a g 0).
    + cbn. small. eexists. reflexivity.
    + intros Q [->|[->| ->]]; cbn; now rewrite S.
    + intros y. reflexivity.
    + exact (wt_sub_ptr (KMessage m) m x eq_refl T).
    + exact L.
    + lia.
Qed.

(** A field without presence: the implicit shape. *)
Lemma plain_run mem key k v l a g :
  select sc g mem = Some (GV (kind_type k) v) -> has_message k = false ->
  wt_elem sc k v -> 0 <= key -> 0 <= a ->
  a + (if implicit_set k v then value_size sc rec key k v else 0) < imax ->
  exists l1, exec sc call 0 (gen_scalar dp (field_expr mem) key k ShPlain) (base l a g)
             = Next (base l1 (a + (if implicit_set k v then value_size sc rec key k v else 0)) g).
Proof.
  intros S Hm T K A B.
  unfold gen_scalar, value_size, implicit_set, field_expr, key_l, sov, soz in *.
  destruct k; try discriminate Hm; cbn [classify kind_type] in *; inv_elem T v;
    cbn [vint vbytes is_zero negb] in *; change (zlen (@nil Z)) with 0 in *.
  all: cbn; rewrite ?S; cbn;
    repeat match goal with
    | |- context [if ?b then _ else _] => destruct b; cbn [negb orb] in *
    | |- context [negb ?b] => destruct b; cbn [negb orb] in *
    end;
    cbn; facts; small; eexists; rewrite ?Z.add_0_r; reflexivity.
Qed.

(** A list that is not packed. *)
Lemma list_run mem key k xs l a g :
  select sc g mem = Some (GV (TSlice k) (VList xs)) -> is_group k = false ->
  (forall x, In x xs -> wt_elem sc k x) -> (forall x, In x xs -> (vdepth x < depth)%nat) ->
  0 <= key <= 6 -> 0 <= a -> a + size_list sc rec key k xs < imax ->
  exists l1, exec sc call 0 (gen_scalar dp (field_expr mem) key k ShRepeated) (base l a g)
             = Next (base l1 (a + size_list sc rec key k xs) g).
Proof.
  intros S Hg T L K A B. pose proof (zlen_pos xs) as ZP.
  assert (forall x, In x xs -> 0 <= value_size sc rec key k x) as VP
    by (intros x Hx; apply value_pos; [lia|now apply T|now apply L]).
  unfold gen_scalar, size_list, field_expr, sov, soz in *.
  destruct k; try discriminate Hg; cbn [classify] in *.
  all: try (cbn; rewrite ?S; cbn; small; eexists; reflexivity).
  all: try (cbn [exec eval]; change (lookup "m" (base l a g)) with (Some g); cbn match;
    rewrite S; cbn [items]; cbn [kind_type] in *;
    apply (loop_sum _ "_" _ (fun x => (GNil, _)) _ g xs l a A VP B);
    intros x l0 b Hx Hb HB; specialize (T x Hx); specialize (L x Hx); specialize (VP x Hx);
    unfold value_size, key_l, sov, soz in *; cbn [classify fst snd] in *; inv_elem T x; cbn [vint vbytes] in *;
    change (zlen (@nil Z)) with 0 in *;
    cbn; facts; small; eexists; reflexivity).
  - cbn [exec eval]; change (lookup "m" (base l a g)) with (Some g); cbn match;
    rewrite S; cbn [items]; cbn [kind_type] in *;
    apply (loop_sum _ "_" _ (fun x => (GNil, _)) _ g xs l a A VP B);
    intros x l0 b Hx Hb HB; specialize (T x Hx); specialize (L x Hx); specialize (VP x Hx).
    pose proof (messageSize_pos m x (wt_sub_ptr (KMessage m) m x eq_refl T) L) as MP.
    unfold value_size, key_l, sov, soz in *; cbn [classify fst snd] in *.
    pose proof (sov_pos (messageSize sc rec m x)).
    cbn [block exec].
    pose proof (messageSize_run (EVar "e") m x [("e", GV (TMsg m) x); ("_", GNil)] l0 b g 0) as R.
    unfold base in *. cbn [app] in R. rewrite R; clear R.
    + cbn. small. eexists. reflexivity.
    + intros Q [->|[->| ->]]; reflexivity.
    + intros y. reflexivity.
    + exact (wt_sub_ptr (KMessage m) m x eq_refl T).
    + exact L.
    + lia.
Qed.

(** A packed list. *)
Lemma packed_run mem key k xs l a g :
  select sc g mem = Some (GV (TSlice k) (VList xs)) -> is_num k = true ->
  (forall x, In x xs -> wt_elem sc k x) ->
  0 <= key <= 6 -> 0 <= a -> a + size_packed key k xs < imax ->
  exists l1, exec sc call 0 (gen_scalar dp (field_expr mem) key k ShPacked) (base l a g)
             = Next (base l1 (a + size_packed key k xs) g).
Proof.
  intros S N T K A B. pose proof (zlen_pos xs) as ZP.
  pose proof (sum_pos (fun e => SizeOfVarint (u64 (vint e))) xs (fun x _ => sov_pos _)) as P1.
  pose proof (sum_pos (fun e => SizeOfZigzag (u64 (vint e))) xs (fun x _ => soz_pos _)) as P2.
  unfold gen_scalar, size_packed, field_expr, sov, soz in *.
  destruct k; try discriminate N; cbn [classify] in *.
  all: try (facts; cbn; rewrite ?S; cbn; small; eexists; reflexivity).
  all: facts; cbn [block]; cbn [exec]; cbn [eval]; cbn [assign base String.eqb Ascii.eqb Bool.eqb];
    cbn [lookup String.eqb Ascii.eqb Bool.eqb]; cbn match; rewrite S; cbn [items kind_type];
    match type of B with context [sum_over ?h _] =>
    (erewrite (loop_len _ "_" "e" (fun x => (GNil, _)) h g a xs 0);
      [|lia|intros x _; (apply sov_pos || apply soz_pos)|pose proof (sov_pos (sum_over h xs)); lia
       |intros x b Hx Hb HB; specialize (T x Hx); inv_elem T x; cbn [vint] in *;
        cbn; facts; small; reflexivity]) end;
    rewrite Z.add_0_l; cbn; small; eexists; reflexivity.
Qed.

(** One entry of a map. *)
Lemma map_key_pos kk v : 0 <= map_key_size kk v.
Proof. unfold map_key_size. destruct (classify kk); facts; lia. Qed.
Lemma map_val_pos vk v : wt_elem sc vk v -> (vdepth v < depth)%nat -> 0 <= map_val_size sc rec vk v.
Proof.
  intros T L. unfold map_val_size. pose proof (key_pos 2 (ProtoWireType vk)).
  destruct vk; cbn [classify]; facts; try lia.
  pose proof (messageSize_pos m v (wt_sub_ptr (KMessage m) m _ eq_refl T) L) as MP.
  destruct (is_nil v); facts; lia.
Qed.
Lemma entry_pos num kk vk e :
  wt_elem sc vk (snd e) -> (vdepth (snd e) < depth)%nat ->
  0 <= map_entry_size sc rec num kk vk e.
Proof.
  intros T L. unfold map_entry_size. pose proof (map_key_pos kk (fst e)).
  pose proof (map_val_pos vk (snd e) T L).
  pose proof (key_pos num 2). pose proof (key_pos 1 (ProtoWireType kk)). facts. lia.
Qed.

(** The sum [mapEntrySize]: its terms add up. *)
Definition int_of (o : option gval) (z : Z) : Prop := o = Some (GInt z) /\ 0 <= z.

Lemma sum_eval E t l z zs : int_of (eval sc call E t) z ->
  Forall2 (fun e z => int_of (eval sc call E e) z) l zs -> fold_left Z.add zs z < imax ->
  eval sc call E (sum_terms t l) = Some (GInt (fold_left Z.add zs z)).
Proof.
  intros H F. revert t z H. induction F as [|e y l zs Hy F IH]; intros t z H B.
  - apply H.
  - cbn [sum_terms fold_left] in *. destruct H as [H1 H2]. destruct Hy as [Y1 Y2].
    assert (z + y < imax) as B1.
    { assert (forall zs w, Forall (fun z => 0 <= z) zs -> w <= fold_left Z.add zs w) as M.
      { intros ws. induction ws as [|q ws IHw]; intros w Fw; cbn [fold_left]; [lia|].
        inversion Fw; subst. specialize (IHw (w + q) ltac:(assumption)). lia. }
      assert (Forall (fun z => 0 <= z) zs) as Fz.
      { clear -F. induction F as [|? ? ? ? [_ ?] ?]; constructor; auto. }
      specialize (M zs (z + y) Fz). lia. }
    apply IH; [|exact B]. split; [|lia]. cbn [eval]. rewrite H1, Y1. cbn [int_op].
    now rewrite int_id by lia.
Qed.

Lemma key_terms kk v E : key_kind kk = true -> lookup "k" E = Some (GV (kind_type kk) v) ->
  wt_elem sc kk v -> zlen (vbytes v) < imax ->
  exists zs, Forall2 (fun e z => int_of (eval sc call E e) z) (gen_map_key kk) zs
             /\ forall z, fold_left Z.add zs z = z + map_key_size kk v.
Proof.
  intros K Lk T Bv. unfold gen_map_key, map_key_size, sov, soz.
  destruct kk; try discriminate K; cbn [classify kind_type] in *; inv_elem T v; cbn [vint vbytes] in *;
    eexists; (split; [repeat (apply Forall2_cons || apply Forall2_nil); cbn [eval];
      rewrite ?Lk; cbn; (split; [reflexivity|facts; small; facts; lia])
     |intros y; cbn [fold_left]; facts; small; lia]).
Qed.

(** The environment in the body of the loop over a map. *)
Definition inner (kk vk : kind) (e : val * val) (l a : Z) (g : gval) : env :=
  ("v", GV (kind_type vk) (snd e)) :: ("k", GV (kind_type kk) (fst e)) :: base l a g.

Lemma val_terms kk vk e l a g rest : is_group vk = false ->
  wt_elem sc vk (snd e) -> (vdepth (snd e) < depth)%nat ->
  map_val_size sc rec vk (snd e) < imax ->
  exists l1 zs,
    exec sc call 0 (block (fst (gen_map_val dp vk) ++ rest)) (inner kk vk e l a g)
    = exec sc call 0 (block rest) (inner kk vk e l1 a g)
    /\ Forall2 (fun x z => int_of (eval sc call (inner kk vk e l1 a g) x) z) (snd (gen_map_val dp vk)) zs
    /\ forall z, fold_left Z.add zs z = z + map_val_size sc rec vk (snd e).
Proof.
  destruct e as [y v]. cbn [snd fst]. intros G T L B. pose proof (key_pos 2 (ProtoWireType vk)) as KP.
  pose proof (map_val_pos vk v T L) as VP.
  unfold gen_map_val, map_val_size, sov, soz, inner in *.
  destruct vk; try discriminate G; cbn [classify kind_type ProtoWireType] in *; inv_elem T v; cbn [vint vbytes fst snd app] in *;
    change (zlen (@nil Z)) with 0 in *.
  all: try (exists l; eexists; split; [reflexivity|split;
     [repeat (apply Forall2_cons || apply Forall2_nil); cbn [eval];
      cbn; (split; [reflexivity|facts; small; facts; lia])
     |intros q; cbn [fold_left]; facts; small; lia]]; fail).
  - (* message *)
    pose proof (messageSize_pos m v (wt_sub_ptr (KMessage m) m _ eq_refl T) L) as MP.
    set (q := if is_nil v then 0 else messageSize sc rec m v) in *.
    assert (0 <= q) as Q0 by (unfold q; destruct (is_nil v); lia).
    pose proof (sov_pos q).
    exists (q + (KeySize 2 2 + SizeOfVarint q)). eexists. split; [|split].
    + cbn [block]. cbn [exec]. cbn [eval]. cbn [assign base String.eqb Ascii.eqb Bool.eqb].
      cbn [lookup String.eqb Ascii.eqb Bool.eqb]. cbn [equals nil_test truth negb].
      destruct (is_nil v) eqn:Nv; cbn [negb]; subst q.
      * cbn. small. reflexivity.
      * pose proof (messageSize_run (EVar "v") m v
          [("v", GV (TMsg m) v); ("k", GV (kind_type kk) y)] 0 a g 0) as R.
        unfold base in *. cbn [app] in R. rewrite R; clear R.
        -- cbn. small. reflexivity.
        -- intros Q [->|[->| ->]]; reflexivity.
        -- intros w. reflexivity.
        -- exact (wt_sub_ptr (KMessage m) m v eq_refl T).
        -- exact L.
        -- cbn in B. lia.
    + apply Forall2_cons; [|apply Forall2_nil]. cbn. split; [reflexivity|cbn in *; lia].
    + intros w. cbn [fold_left]. reflexivity.
  - (* nil bytes *)
    pose proof (sov_pos 0).
    eexists. eexists. split; [|split].
    + cbn. small. reflexivity.
    + apply Forall2_cons; [|apply Forall2_nil]. cbn. split; [reflexivity|cbn in *; lia].
    + intros w. cbn [fold_left]. reflexivity.
  - (* bytes *)
    pose proof (sov_pos (zlen s)). pose proof (zlen_pos s).
    eexists. eexists. split; [|split].
    + cbn. small. reflexivity.
    + apply Forall2_cons; [|apply Forall2_nil]. cbn. split; [reflexivity|cbn in *; lia].
    + intros w. cbn [fold_left]. reflexivity.
Qed.

Lemma entry_run num kk vk e l a g : key_kind kk = true -> is_group vk = false ->
  wt_elem sc kk (fst e) -> wt_elem sc vk (snd e) -> (vdepth (snd e) < depth)%nat ->
  0 <= a -> a + map_entry_size sc rec num kk vk e < imax ->
  exists l1, leave (base l a g) (exec sc call 0 (block (
    [SBlank "k"; SBlank "v"] ++ fst (gen_map_val dp vk) ++
    [SDef "mapEntrySize" (sum_terms (EInt (KeySize 1 (ProtoWireType kk))) (gen_map_key kk ++ snd (gen_map_val dp vk)));
     SAddTo "n" (EAdd (EAdd (EVar "mapEntrySize") (EInt (KeySize num 2))) (sov (EVar "mapEntrySize")))]))
    (inner kk vk e l a g))
  = Next (base l1 (a + map_entry_size sc rec num kk vk e) g).
Proof.
  intros K G Tk Tv L A B.
  pose proof (map_key_pos kk (fst e)) as KP. pose proof (map_val_pos vk (snd e) Tv L) as VP.
  pose proof (key_pos num 2) as P1. pose proof (key_pos 1 (ProtoWireType kk)) as P2.
  unfold map_entry_size in *.
  set (q := KeySize 1 (ProtoWireType kk) + map_key_size kk (fst e) + map_val_size sc rec vk (snd e)) in *.
  pose proof (sov_pos q) as P3.
  assert (zlen (vbytes (fst e)) < imax) as Bk.
  { assert (zlen (vbytes (fst e)) <= map_key_size kk (fst e)) as Q.
    { unfold map_key_size. destruct kk; try discriminate K; cbn [classify];
        try (destruct (wt_elem_num sc _ (fst e) eq_refl Tk) as (z & -> & _)).
      all: try (match type of Tk with wt_elem _ ?k _ =>
             destruct (wt_elem_num sc k (fst e) eq_refl Tk) as (z & E & _) end;
             rewrite E; cbn [vint vbytes]; change (zlen (@nil Z)) with 0; facts; lia).
      facts. lia. }
    lia. }
  change (block ([SBlank "k"; SBlank "v"] ++ ?r)) with (SSeq (SBlank "k") (SSeq (SBlank "v") (block r))).
  cbn [exec]. change (lookup "k" (inner kk vk e l a g)) with (Some (GV (kind_type kk) (fst e))).
  cbn match.
  change (lookup "v" (inner kk vk e l a g)) with (Some (GV (kind_type vk) (snd e))). cbn match.
  match goal with |- context [block (fst ?p ++ ?r)] =>
    destruct (val_terms kk vk e l a g r G Tv L ltac:(lia)) as (l1 & zs & E1 & F1 & S1) end.
  rewrite E1.
  destruct (key_terms kk (fst e) (inner kk vk e l1 a g) K eq_refl Tk Bk) as (ys & F2 & S2).
  assert (eval sc call (inner kk vk e l1 a g)
            (sum_terms (EInt (KeySize 1 (ProtoWireType kk))) (gen_map_key kk ++ snd (gen_map_val dp vk)))
          = Some (GInt q)) as EV.
  { rewrite (sum_eval _ _ _ (KeySize 1 (ProtoWireType kk)) (ys ++ zs)).
    - rewrite fold_left_app, S2, S1. reflexivity.
    - split; [reflexivity|exact P2].
    - now apply Forall2_app.
    - rewrite fold_left_app, S2, S1. fold q. lia. }
  exists l1. cbn [block exec]. rewrite EV. unfold inner, base, sov.
  cbn. small. reflexivity.
Qed.

Lemma map_run mem num kk vk xs l a g :
  select sc g mem = Some (GV (TMapOf kk vk) (VMap xs)) -> key_kind kk = true -> is_group vk = false ->
  (forall e, In e xs -> wt_elem sc kk (fst e)) -> (forall e, In e xs -> wt_elem sc vk (snd e)) ->
  (forall e, In e xs -> (vdepth (snd e) < depth)%nat) ->
  0 <= a -> a + sum_over (map_entry_size sc rec num kk vk) xs < imax ->
  exists l1, exec sc call 0 (gen_map dp (field_expr mem) num kk vk) (base l a g)
             = Next (base l1 (a + sum_over (map_entry_size sc rec num kk vk) xs) g).
Proof.
  intros S K G Tk Tv L A B. unfold gen_map, field_expr. cbn [exec eval].
  change (lookup "m" (base l a g)) with (Some g). cbn match. rewrite S. cbn [items].
  apply (loop_sum _ "k" "v" (fun e => (GV (kind_type kk) (fst e), GV (kind_type vk) (snd e))) _ g xs l a A).
  - intros e He. apply entry_pos; auto.
  - exact B.
  - intros e l0 b He Hb HB. cbn [fst snd].
    exact (entry_run num kk vk e l0 b g K G (Tk e He) (Tv e He) (L e He) Hb HB).
Qed.

Lemma equals_nil g : equals g GNil = nil_test g.
Proof. destruct g as [| | | | | | | |[] []]; reflexivity || (destruct k; reflexivity). Qed.

(** A field that is not in a oneof. *)
Lemma field_pos n f v : wf_type n (f_ty f) = true -> is_oneof f = false ->
  (exists md, wt_field sc md f v) -> (vdepth v < depth)%nat -> 0 <= size_field sc rec f v.
Proof.
  intros Wt No [md T] L. apply wt_field_inv in T. unfold is_oneof in No. unfold size_field.
  destruct (f_ty f) as [lbl k|kk vk].
  - pose proof (key_pos (f_num f) (ProtoWireType k)) as KP. pose proof (key_pos (f_num f) 2) as KP2.
    destruct lbl as [| | |p|]; try discriminate No.
    + destruct (implicit_set k v); [now apply value_pos|lia].
    + destruct (is_nil v) eqn:Nv; [lia|].
      destruct T as [->|[(x & -> & _ & T)|(_ & _ & T)]]; [discriminate|cbn in *; apply value_pos; auto; lia|].
      replace (deref v) with v; [now apply value_pos|].
      destruct v; try reflexivity. now apply wt_elem_notptr in T.
    + destruct (is_nil v) eqn:Nv; [lia|].
      destruct T as [->|[(x & -> & _ & T)|(_ & _ & T)]]; [discriminate|cbn in *; apply value_pos; auto; lia|].
      replace (deref v) with v; [now apply value_pos|].
      destruct v; try reflexivity. now apply wt_elem_notptr in T.
    + destruct T as [->|(l & -> & T)]; [cbn [vlist]; change (zlen (@nil val)) with 0; change (0 <? 0) with false; destruct p; lia|]. cbn [vlist].
      assert (forall x, In x l -> (vdepth x < depth)%nat) as Lx
        by (intros x Hx; pose proof (vdepth_list l x Hx); lia).
      destruct p; destruct (0 <? zlen l); try lia.
      * unfold size_packed. pose proof (sum_pos (fun e => SizeOfVarint (u64 (vint e))) l (fun x _ => sov_pos _)).
        pose proof (sum_pos (fun e => SizeOfZigzag (u64 (vint e))) l (fun x _ => soz_pos _)).
        destruct (classify k); facts; lia.
      * assert (0 <= sum_over (value_size sc rec (KeySize (f_num f) (ProtoWireType k)) k) l)
          by (apply sum_pos; intros; apply value_pos; auto).
        unfold size_list. pose proof (zlen_pos l).
        destruct (classify k); facts; try apply Z.mul_nonneg_nonneg; lia.
  - destruct T as [->|(l & -> & _ & T & _)]; [cbn [vmap]; rewrite sum_nil; destruct (_ <? _); lia|]. cbn [vmap].
    destruct (0 <? zlen l); [|lia]. apply sum_pos. intros [y x] He. apply entry_pos; [now apply T|].
    pose proof (vdepth_map l y x He). cbn [snd]. lia.
Qed.

Lemma field_run n f v l a g : wf_type n (f_ty f) = true -> is_oneof f = false ->
  select sc g (MSlot (f_slot f)) = Some (GV (field_type (f_ty f)) v) ->
  (exists md, wt_field sc md f v) -> (vdepth v < depth)%nat ->
  0 <= a -> a + size_field sc rec f v < imax ->
  exists l1, exec sc call 0 (gen_field dp f) (base l a g)
             = Next (base l1 (a + size_field sc rec f v) g).
Proof.
  intros Wt No S [md T] L A B. apply wt_field_inv in T. unfold is_oneof in No.
  unfold size_field, gen_field in *. fold (field_expr (MSlot (f_slot f))).
  destruct (f_ty f) as [lbl k|kk vk].
  - pose proof (key_pos (f_num f) (ProtoWireType k)) as KP. pose proof (key_pos (f_num f) 2) as KP2.
    pose proof (key_small (f_num f) (ProtoWireType k)) as KS. pose proof (key_small (f_num f) 2) as KS2.
    cbn [wf_type] in Wt. apply andb_true_iff in Wt as [_ Wt].
    destruct lbl as [| | |p|]; try discriminate No; cbn [field_type] in S.
    + assert (has_message k = false) as Hm by (destruct k; try reflexivity; discriminate Wt).
      rewrite Hm. apply plain_run; auto.
    + clear Wt No. destruct T as [->|[(x & -> & Hk & T)|(H1 & H2 & T)]].
      * exists l. cbn [exec eval field_expr]. change (lookup "m" (base l a g)) with (Some g). cbn match.
        rewrite S. cbn [is_nil] in *. rewrite Z.add_0_r.
        destruct k; reflexivity.
      * cbn [is_nil deref] in *.
        assert (field_type (TField LOptional k) = TPtr k) as Ft
          by (destruct Hk as [Hk| ->]; [destruct k; try discriminate Hk; reflexivity|reflexivity]).
        cbn [field_type] in Ft. rewrite Ft in S.
        destruct (value_run (MSlot (f_slot f)) (KeySize (f_num f) (ProtoWireType k)) k ShNullable
          (VPtr x) x l a g (TPtr k) S) as [l1 E];
          [right; split; [reflexivity|left; auto]|exact T|cbn in L; lia|lia|lia|exact B|].
        exists l1. cbn [exec eval field_expr]. change (lookup "m" (base l a g)) with (Some g). cbn match.
        rewrite S. cbn [equals nil_test is_nil truth negb].
        unfold field_expr in *. rewrite E. reflexivity.
      * assert (field_type (TField LOptional k) = kind_type k) as Ft
          by (destruct k; try discriminate H1; try reflexivity; now elim H2).
        cbn [field_type] in Ft. rewrite Ft in S.
        cbn [exec eval field_expr]. change (lookup "m" (base l a g)) with (Some g). cbn match.
        rewrite S, equals_nil.
        assert (nil_test (GV (kind_type k) v) = Some (is_nil v)) as Nt
          by (destruct k; try discriminate H1; try reflexivity; now elim H2).
        rewrite Nt. cbn [truth]. destruct (is_nil v) eqn:Nv; cbn [negb].
        -- exists l. rewrite Z.add_0_r. reflexivity.
        -- assert (deref v = v) as Dv
             by (destruct v; try reflexivity; now apply wt_elem_notptr in T).
           rewrite Dv in *.
           destruct (value_run (MSlot (f_slot f)) (KeySize (f_num f) (ProtoWireType k)) k ShNullable
             v v l a g (kind_type k) S) as [l1 E]; auto.
           { right. split; [reflexivity|]. right. auto. }
           exists l1. unfold field_expr in *. rewrite E. reflexivity.
    + clear Wt No. destruct T as [->|[(x & -> & Hk & T)|(H1 & H2 & T)]].
      * exists l. cbn [exec eval field_expr]. change (lookup "m" (base l a g)) with (Some g). cbn match.
        rewrite S. cbn [is_nil] in *. rewrite Z.add_0_r.
        destruct k; reflexivity.
      * cbn [is_nil deref] in *.
        assert (field_type (TField LOptional k) = TPtr k) as Ft
          by (destruct Hk as [Hk| ->]; [destruct k; try discriminate Hk; reflexivity|reflexivity]).
        cbn [field_type] in Ft. rewrite Ft in S.
        destruct (value_run (MSlot (f_slot f)) (KeySize (f_num f) (ProtoWireType k)) k ShNullable
          (VPtr x) x l a g (TPtr k) S) as [l1 E];
          [right; split; [reflexivity|left; auto]|exact T|cbn in L; lia|lia|lia|exact B|].
        exists l1. cbn [exec eval field_expr]. change (lookup "m" (base l a g)) with (Some g). cbn match.
        rewrite S. cbn [equals nil_test is_nil truth negb].
        unfold field_expr in *. rewrite E. reflexivity.
      * assert (field_type (TField LOptional k) = kind_type k) as Ft
          by (destruct k; try discriminate H1; try reflexivity; now elim H2).
        cbn [field_type] in Ft. rewrite Ft in S.
        cbn [exec eval field_expr]. change (lookup "m" (base l a g)) with (Some g). cbn match.
        rewrite S, equals_nil.
        assert (nil_test (GV (kind_type k) v) = Some (is_nil v)) as Nt
          by (destruct k; try discriminate H1; try reflexivity; now elim H2).
        rewrite Nt. cbn [truth]. destruct (is_nil v) eqn:Nv; cbn [negb].
        -- exists l. rewrite Z.add_0_r. reflexivity.
        -- assert (deref v = v) as Dv
             by (destruct v; try reflexivity; now apply wt_elem_notptr in T).
           rewrite Dv in *.
           destruct (value_run (MSlot (f_slot f)) (KeySize (f_num f) (ProtoWireType k)) k ShNullable
             v v l a g (kind_type k) S) as [l1 E]; auto.
           { right. split; [reflexivity|]. right. auto. }
           exists l1. unfold field_expr in *. rewrite E. reflexivity.
    + apply andb_true_iff in Wt as [Wp Wg]. apply negb_true_iff in Wg.
      destruct T as [->|(xs & -> & T)].
      * exists l. cbn [exec eval field_expr]. change (lookup "m" (base l a g)) with (Some g). cbn match.
        rewrite S. cbn [length_of vlist] in *.
        change (zlen (@nil val)) with 0; change (0 <? 0) with false. replace (a + _) with a by (destruct p; lia). reflexivity.
      * assert (forall x, In x xs -> (vdepth x < depth)%nat) as Lx
          by (intros x Hx; pose proof (vdepth_list xs x Hx); lia).
        cbn [vlist] in *.
        cbn [exec eval field_expr]. change (lookup "m" (base l a g)) with (Some g). cbn match.
        rewrite S. cbn [length_of truth].
        destruct (0 <? zlen xs) eqn:Z0.
        -- destruct p.
           ++ destruct (packed_run (MSlot (f_slot f)) (KeySize (f_num f) 2) k xs l a g S Wp T) as [l1 E]; auto.
              exists l1. unfold field_expr in *. rewrite E. reflexivity.
           ++ destruct (list_run (MSlot (f_slot f)) (KeySize (f_num f) (ProtoWireType k)) k xs l a g S Wg T Lx) as [l1 E]; auto.
              exists l1. unfold field_expr in *. rewrite E. reflexivity.
        -- exists l. replace (a + _) with a by (destruct p; lia). reflexivity.
  - cbn [field_type wf_type] in *. apply andb_true_iff in Wt as [Wt Wg].
    apply andb_true_iff in Wt as [Wk _]. apply negb_true_iff in Wg.
    destruct T as [->|(xs & -> & Tk & Tv & _)].
    + exists l. cbn [exec eval field_expr]. change (lookup "m" (base l a g)) with (Some g). cbn match.
      rewrite S. cbn [length_of vmap] in *.
      rewrite sum_nil. replace (a + _) with a by (destruct (_ <? _); lia). reflexivity.
    + cbn [vmap] in *.
      cbn [exec eval field_expr]. change (lookup "m" (base l a g)) with (Some g). cbn match.
      rewrite S. cbn [length_of truth].
      destruct (0 <? zlen xs) eqn:Z0.
      * destruct (map_run (MSlot (f_slot f)) (f_num f) kk vk xs l a g S Wk Wg Tk Tv) as [l1 E]; auto.
        { intros [y x] He. pose proof (vdepth_map xs y x He). cbn [snd]. lia. }
        exists l1. unfold field_expr in *. rewrite E. reflexivity.
      * exists l. rewrite Z.add_0_r. reflexivity.
Qed.

(** A field in a oneof: the method of its wrapper. *)
Lemma member_pos f k x : f_ty f = TField LOneof k -> wt_elem sc k x -> (vdepth x < depth)%nat ->
  0 <= size_field sc rec f x.
Proof.
  intros E T L. unfold size_field. rewrite E.
  pose proof (key_pos (f_num f) (ProtoWireType k)).
  pose proof (value_pos (KeySize (f_num f) (ProtoWireType k)) k x ltac:(lia) T L).
  destruct (classify k); try destruct (is_nil x); lia.
Qed.

Lemma member_run f k x l g : f_ty f = TField LOneof k -> is_group k = false ->
  select sc g (MIn (f_num f)) = Some (GV (kind_type k) x) ->
  wt_elem sc k x -> (vdepth x < depth)%nat -> size_field sc rec f x < imax ->
  exists l1, exec sc call 0 (gen_field dp f) (base l 0 g)
             = Next (base l1 (size_field sc rec f x) g).
Proof.
  intros Ef G S T L B. unfold size_field, gen_field in *. rewrite Ef in *.
  fold (field_expr (MIn (f_num f))).
  pose proof (key_pos (f_num f) (ProtoWireType k)) as KP.
  destruct (has_message k) eqn:Hm.
  - destruct k; try discriminate Hm; try discriminate G. cbn [classify kind_type] in *.
    cbn [exec eval field_expr]. change (lookup "m" (base l 0 g)) with (Some g). cbn match.
    rewrite S. cbn [equals nil_test truth]. destruct (is_nil x) eqn:Nx; cbn [negb].
    + exists l. cbn [ProtoWireType] in *. cbn. small. rewrite Z.add_0_l. reflexivity.
    + destruct (value_run (MIn (f_num f)) (KeySize (f_num f) (ProtoWireType (KMessage m))) (KMessage m)
        ShNullable x x l 0 g (TMsg m) S) as [l1 E]; [|exact T|exact L|exact KP|lia|rewrite Z.add_0_l; exact B|].
      { right. split; [reflexivity|]. right. repeat split; discriminate. }
      rewrite Z.add_0_l in E.
      exists l1. unfold field_expr in *. rewrite E. reflexivity.
  - destruct (value_run (MIn (f_num f)) (KeySize (f_num f) (ProtoWireType k)) k
      ShOneof x x l 0 g (kind_type k) S) as [l1 E]; [left; auto|exact T|exact L|exact KP|lia| |].
    + rewrite Z.add_0_l. destruct k; try discriminate Hm; exact B.
    + exists l1. rewrite E, Z.add_0_l. destruct k; try discriminate Hm; reflexivity.
Qed.
End Body.

(** Selecting the members of a message. *)
Lemma select_slot m f slots unk hid : In f (md_fields (md_of sc m)) -> is_oneof f = false ->
  select sc (GV (TMsg m) (VMsg slots unk hid)) (MSlot (f_slot f))
  = Some (GV (field_type (f_ty f)) (slot slots (f_slot f))).
Proof.
  intros Hf No. cbn [select].
  destruct (find (fun f0 => Nat.eqb (f_slot f0) (f_slot f)) (md_fields (md_of sc m))) as [h|] eqn:Fd.
  - apply find_some in Fd as [Hh Es]. apply Nat.eqb_eq in Es.
    assert (h = f) as ->.
    { assert (forall x y : fdesc, {x = y} + {x <> y}) as De by (repeat decide equality).
      destruct (De h f) as [|Ne]; [assumption|].
      destruct (wf_compat sc m h f W Hh Hf Ne) as [_ Q]. destruct (Q Es) as [_ Q2]. congruence. }
    now rewrite No.
  - apply find_none with (x := f) in Fd; [|exact Hf]. now rewrite Nat.eqb_refl in Fd.
Qed.

Lemma select_oneof m f slots unk hid : In f (md_fields (md_of sc m)) -> is_oneof f = true ->
  select sc (GV (TMsg m) (VMsg slots unk hid)) (MSlot (f_slot f))
  = match slot slots (f_slot f) with
    | VOneof num x => Some (GV (TWrap m num) (VOneof num x))
    | VNil => Some (GV TNone VNil)
    | _ => None
    end.
Proof.
  intros Hf No. cbn [select].
  destruct (find (fun f0 => Nat.eqb (f_slot f0) (f_slot f)) (md_fields (md_of sc m))) as [h|] eqn:Fd.
  - apply find_some in Fd as [Hh Es]. apply Nat.eqb_eq in Es.
    assert (is_oneof h = true) as ->; [|reflexivity].
    assert (forall x y : fdesc, {x = y} + {x <> y}) as De by (repeat decide equality).
    destruct (De h f) as [->|Ne]; [assumption|].
    destruct (wf_compat sc m h f W Hh Hf Ne) as [_ Q]. now destruct (Q Es).
  - apply find_none with (x := f) in Fd; [|exact Hf]. now rewrite Nat.eqb_refl in Fd.
Qed.

Lemma find_member m f : In f (md_fields (md_of sc m)) -> find_field (f_num f) (md_fields (md_of sc m)) = Some f.
Proof.
  intros Hf. unfold find_field.
  destruct (find (fun f0 => f_num f0 =? f_num f) (md_fields (md_of sc m))) as [h|] eqn:Fd.
  - apply find_some in Fd as [Hh Es]. apply Z.eqb_eq in Es. f_equal. now apply (wf_num_inj sc m).
  - apply find_none with (x := f) in Fd; [|exact Hf]. now rewrite Z.eqb_refl in Fd.
Qed.

Lemma prologue_run call x g rest : nil_test g = Some false ->
  exec sc call x (block (prologue ++ rest)) [("n", GInt 0); ("m", g)]
  = exec sc call x (block rest) (base 0 0 g).
Proof.
  intros H. unfold prologue. cbn [block app]. cbn [exec eval].
  change (lookup "m" [("n", GInt 0); ("m", g)]) with (Some g). cbn match.
  rewrite equals_nil, H. reflexivity.
Qed.

Definition good (n : nat) : Prop := forall m v k, wt_ptrmsg sc m v ->
  md_foreign (md_of sc m) = false -> (vdepth v < n)%nat -> (vdepth v < k)%nat ->
  0 <= size_msg sc k m v
  /\ (size_msg sc k m v < imax ->
      run_SizeVT dp sc n (GV (TMsg m) v) "SizeVT" = Some (GInt (size_msg sc k m v))).

(** The calls of a method body on values of depth below [d], with [n] levels of
    calls left. *)
Lemma good_calls n k d : (d <= n)%nat -> (d <= k)%nat -> good n ->
  forall m v, wt_ptrmsg sc m v -> (vdepth v < d)%nat -> md_foreign (md_of sc m) = false ->
  0 <= size_msg sc k m v
  /\ (size_msg sc k m v < imax ->
      run_SizeVT dp sc n (GV (TMsg m) v) "SizeVT" = Some (GInt (size_msg sc k m v))).
Proof. intros H1 H2 G m v T L F. apply G; auto; lia. Qed.

(** The method of a wrapper. *)
Lemma wrapper_run n k m f kd x : good n -> In f (md_fields (md_of sc m)) -> f_ty f = TField LOneof kd ->
  wt_elem sc kd x -> (vdepth x < n)%nat -> (vdepth x < k)%nat ->
  0 <= size_field sc (size_msg sc k) f x
  /\ (size_field sc (size_msg sc k) f x < imax ->
      run_SizeVT dp sc (S n) (GV (TWrap m (f_num f)) (VOneof (f_num f) x)) "SizeVT"
      = Some (GInt (size_field sc (size_msg sc k) f x))).
Proof.
  intros G Hf Ef T L1 L2.
  pose proof (good_calls n k (S (vdepth x)) ltac:(lia) ltac:(lia) G) as C.
  split.
  - eapply member_pos; eauto.
  - intros B. cbn [run_SizeVT String.eqb Ascii.eqb Bool.eqb]. rewrite (find_member m f Hf).
    unfold method, gen_wrapper_SizeVT.
    set (g := GV (TWrap m (f_num f)) (VOneof (f_num f) x)).
    assert (is_group kd = false) as Hg.
    { pose proof (wf_ty sc m f W Hf) as Wt. rewrite Ef in Wt. cbn in Wt.
      apply andb_true_iff in Wt as [_ Wt]. now apply negb_true_iff in Wt. }
    assert (select sc g (MIn (f_num f)) = Some (GV (kind_type kd) x)) as Sel.
    { unfold g. cbn [select]. rewrite Z.eqb_refl. cbn [andb]. now rewrite (find_member m f Hf), Ef. }
    destruct (member_run (run_SizeVT dp sc n) (size_msg sc k) (S (vdepth x)) C f kd x 0 g Ef Hg Sel T
                ltac:(lia) B) as [l1 E].
    rewrite (prologue_run _ 0 g [gen_field dp f; SReturn (EVar "n")] eq_refl).
    cbn [block exec]. rewrite E. reflexivity.
Qed.

(** The walk over the fields. *)
Lemma walk_run n k m slots unk hid g : g = GV (TMsg m) (VMsg slots unk hid) ->
  (forall j, (j <= n)%nat -> good j) -> wt_msg sc m (VMsg slots unk hid) ->
  (vdepth (VMsg slots unk hid) <= n)%nat -> (vdepth (VMsg slots unk hid) <= k)%nat ->
  forall l seen rest, (forall f, In f l -> In f (md_fields (md_of sc m))) ->
  0 <= size_fields sc (size_msg sc k) (md_of sc m) slots seen l
  /\ forall l0 a, 0 <= a -> a + size_fields sc (size_msg sc k) (md_of sc m) slots seen l < imax ->
     exists l1, exec sc (run_SizeVT dp sc n) 0 (block (gen_fields dp m (md_of sc m) seen l ++ rest)) (base l0 a g)
       = exec sc (run_SizeVT dp sc n) 0 (block rest)
           (base l1 (a + size_fields sc (size_msg sc k) (md_of sc m) slots seen l) g).
Proof.
  intros Eg G T Ln Lk. inversion T as [? ? ? ? _ Tf _]; subst.
  set (md := md_of sc m) in *. set (g := GV (TMsg m) (VMsg slots unk hid)).
  induction l as [|f l IH]; intros seen rest Sub.
  { split; [cbn; lia|]. intros l0 a A B. exists l0. cbn [gen_fields size_fields app].
    now rewrite Z.add_0_r. }
  assert (In f (md_fields md)) as Hf by (apply Sub; now left).
  assert (forall h, In h l -> In h (md_fields md)) as Sub' by (intros; apply Sub; now right).
  pose proof (vdepth_slot slots unk hid (f_slot f)) as Ds.
  cbn [gen_fields size_fields]. destruct (is_oneof f) eqn:Of.
  - destruct (existsb (Nat.eqb (f_slot f)) seen) eqn:Ex; [now apply IH|].
    destruct (IH (f_slot f :: seen) rest Sub') as [P IHr]. cbn [app block exec].
    pose proof (Tf f Hf) as Tv. apply wt_field_inv in Tv. unfold is_oneof in Of.
    destruct (f_ty f) as [[| | | |] kd|] eqn:Ef; try discriminate Of.
    assert (select sc g (MSlot (f_slot f)) = match slot slots (f_slot f) with
      | VOneof num x => Some (GV (TWrap m num) (VOneof num x))
      | VNil => Some (GV TNone VNil) | _ => None end) as Sel.
    { apply select_oneof; [exact Hf|]. unfold is_oneof. now rewrite Ef. }
    destruct Tv as [Ev|(h & kd' & x & Ev & Hh & Hs & Eh & Tx)].
    + rewrite Ev in *. cbn [size_oneof]. split; [lia|]. intros l0 a A B.
      destruct (IHr l0 a A ltac:(lia)) as [l1 E]. exists l1. rewrite Z.add_0_l. rewrite <- E.
      unfold gen_oneof. destruct (is_known (dp m)); cbn [exec eval];
        change (lookup "m" (base l0 a g)) with (Some g); cbn match; rewrite Sel; reflexivity.
    + rewrite Ev in *. cbn [size_oneof]. rewrite (find_member m h Hh : find_field (f_num h) (md_fields md) = Some h).
      change (vdepth (VOneof (f_num h) x)) with (S (vdepth x)) in Ds.
      destruct n as [|n]; [lia|].
      destruct (wrapper_run n k m h kd' x (G n ltac:(lia)) Hh Eh Tx ltac:(lia) ltac:(lia)) as [Px Rx].
      split; [lia|]. intros l0 a A B. specialize (Rx ltac:(lia)).
      destruct (IHr l0 (a + size_field sc (size_msg sc k) h x)) as [l1 E]; [lia|lia|].
      exists l1. rewrite Z.add_assoc. rewrite <- E.
      unfold gen_oneof. destruct (is_known (dp m)) eqn:Kn; cbn [exec eval];
        change (lookup "m" (base l0 a g)) with (Some g); cbn match; rewrite Sel.
      * (* switch *)
        assert (exec sc (run_SizeVT dp sc (S n)) (f_num h)
          (gen_cases (filter (fun q => Nat.eqb (f_slot q) (f_slot f)) (md_fields md)))
          (("c", GV (TWrap m (f_num h)) (VOneof (f_num h) x)) :: base l0 a g)
          = Next (("c", GV (TWrap m (f_num h)) (VOneof (f_num h) x))
                  :: base l0 (a + size_field sc (size_msg sc k) h x) g)) as Ec.
        { assert (In h (filter (fun q => Nat.eqb (f_slot q) (f_slot f)) (md_fields md))) as Hin.
          { apply filter_In. split; [exact Hh|]. rewrite Hs. apply Nat.eqb_refl. }
          revert Hin. generalize (filter (fun q => Nat.eqb (f_slot q) (f_slot f)) (md_fields md)).
          intros cs. induction cs as [|q cs IHc]; [intros []|]. intros Hin. cbn [gen_cases exec].
          destruct (f_num q =? f_num h) eqn:Eq.
          - apply Z.eqb_eq in Eq. rewrite Eq. cbn [eval].
            change (lookup "c" (("c", ?y) :: ?z)) with (Some y). cbn match. rewrite Z.eqb_refl, Rx.
            change (lookup "n" (?y :: base l0 a g)) with (Some (GInt a)). cbn [int_op].
            rewrite int_id by lia. reflexivity.
          - apply IHc. destruct Hin as [->|Hin]; [now rewrite Z.eqb_refl in Eq|exact Hin]. }
        rewrite Ec. reflexivity.
      * cbn [has_helpers]. cbn [exec eval].
        change (lookup "vtmsg" (("ok", ?q) :: ("vtmsg", ?y) :: ?z)) with (Some y). cbn match. rewrite Rx.
        change (lookup "n" (?q :: ?y :: base l0 a g)) with (Some (GInt a)). cbn [int_op].
        rewrite int_id by lia. reflexivity.
  - destruct (IH seen rest Sub') as [P IHr].
    pose proof (good_calls n k (vdepth (VMsg slots unk hid)) Ln Lk (G n ltac:(lia))) as C.
    pose proof (wf_ty sc m f W Hf) as Wt.
    assert (exists md, wt_field sc md f (slot slots (f_slot f))) as Ex by (exists md; now apply Tf).
    assert (0 <= size_field sc (size_msg sc k) f (slot slots (f_slot f))) as Pf
      by (eapply (field_pos (run_SizeVT dp sc n)); eauto).
    split; [lia|]. intros l0 a A B.
    destruct (field_run (run_SizeVT dp sc n) (size_msg sc k) _ C _ f (slot slots (f_slot f)) l0 a g
      Wt Of (select_slot m f slots unk hid Hf Of) Ex Ds A ltac:(lia)) as [l1 E].
    destruct (IHr l1 (a + size_field sc (size_msg sc k) f (slot slots (f_slot f)))) as [l2 E2]; [lia|lia|].
    exists l2. rewrite Z.add_assoc, <- E2. cbn [app block exec]. rewrite E. reflexivity.
Qed.

Lemma all_good n : good n.
Proof.
  induction n as [n IH] using (well_founded_induction Wf_nat.lt_wf).
  intros m v k T F L1 L2. destruct n as [|n]; [lia|]. destruct k as [|k]; [lia|].
  cbn [size_msg run_SizeVT String.eqb Ascii.eqb Bool.eqb]. rewrite F.
  destruct T as [->|T].
  - cbn [size_body]. split; [lia|]. intros _. reflexivity.
  - inversion T as [? slots unk hid Hl Tf Hu]; subst. cbn [size_body].
    set (g := GV (TMsg m) (VMsg slots unk hid)).
    pose proof (zlen_pos unk) as Zu.
    destruct (walk_run n k m slots unk hid g eq_refl (fun j Hj => IH j ltac:(lia)) T ltac:(lia) ltac:(lia)
      (md_fields (md_of sc m)) []
      ((if md_keep (md_of sc m) then [SAddTo "n" (ELen (ESel (EVar "m") MUnknown))] else [])
         ++ [SReturn (EVar "n")]) (fun f Hf => Hf)) as [P R].
    split; [destruct (md_keep (md_of sc m)); lia|]. intros B.
    destruct (R 0 0 ltac:(lia)) as [l1 E]; [destruct (md_keep (md_of sc m)); lia|].
    unfold method, gen_SizeVT. rewrite prologue_run by reflexivity. rewrite E, Z.add_0_l.
    destruct (md_keep (md_of sc m)).
    + cbn. rewrite int_id by lia. reflexivity.
    + rewrite Z.add_0_r. reflexivity.
Qed.
End Run.
